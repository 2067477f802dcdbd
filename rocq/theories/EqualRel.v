(** EqualVT as a relation. *)
From Coq Require Import ZArith List Bool Lia Permutation.
From Verif Require Import Base BaseFacts Schema Value Helpers Unmarshal Equal WireSpec Typing RecordSpec MsgSpec DecodeSpec ContentSpec EqualSpec
  OrderFacts SimFacts MarshalFacts SameFacts.
Import ListNotations.
Open Scope Z_scope.

Ltac tys := repeat match goal with T : f_ty ?f = _, Q : f_ty ?f = _ |- _ => rewrite T in Q; first [discriminate Q|injection Q; clear Q; intros; subst] end.

(** * Numbers *)
Lemma is_nan_spec k z : is_nan k z = true <-> nan k z.
Proof.
  unfold is_nan, nan. destruct k; try (split; [discriminate|tauto]).
  - change 9223372036854775807 with (Z.ones 63). rewrite Z.land_ones by lia.
    pose proof (Z.div_mod z (2 ^ 63) ltac:(lia)) as D. pose proof (Z.mod_pos_bound z (2 ^ 63) ltac:(lia)) as B.
    set (q := z / 2 ^ 63) in *. set (r := z mod 2 ^ 63) in *.
    assert (z / 2 ^ 52 = 2 ^ 11 * q + r / 2 ^ 52) as E1.
    { rewrite D. replace (2 ^ 63 * q + r) with (r + (2 ^ 11 * q) * 2 ^ 52) by lia. rewrite Z.div_add by lia. lia. }
    assert (z mod 2 ^ 52 = r mod 2 ^ 52) as E2.
    { rewrite D. replace (2 ^ 63 * q + r) with (r + (2 ^ 11 * q) * 2 ^ 52) by lia. now rewrite Z.mod_add by lia. }
    rewrite E1, E2. replace (2 ^ 11 * q + r / 2 ^ 52) with (r / 2 ^ 52 + q * 2 ^ 11) by lia. rewrite Z.mod_add by lia.
    pose proof (Z.div_mod r (2 ^ 52) ltac:(lia)) as D2. pose proof (Z.mod_pos_bound r (2 ^ 52) ltac:(lia)) as B2.
    assert (0 <= r / 2 ^ 52 < 2 ^ 11) as B3 by (split; [apply Z.div_pos; lia|apply Z.div_lt_upper_bound; lia]).
    rewrite (Z.mod_small (r / 2 ^ 52)) by exact B3.
    rewrite Z.ltb_lt. set (a := r / 2 ^ 52) in *. set (c := r mod 2 ^ 52) in *. lia.
  - change 2147483647 with (Z.ones 31). rewrite Z.land_ones by lia.
    pose proof (Z.div_mod z (2 ^ 31) ltac:(lia)) as D. pose proof (Z.mod_pos_bound z (2 ^ 31) ltac:(lia)) as B.
    set (q := z / 2 ^ 31) in *. set (r := z mod 2 ^ 31) in *.
    assert (z / 2 ^ 23 = 2 ^ 8 * q + r / 2 ^ 23) as E1.
    { rewrite D. replace (2 ^ 31 * q + r) with (r + (2 ^ 8 * q) * 2 ^ 23) by lia. rewrite Z.div_add by lia. lia. }
    assert (z mod 2 ^ 23 = r mod 2 ^ 23) as E2.
    { rewrite D. replace (2 ^ 31 * q + r) with (r + (2 ^ 8 * q) * 2 ^ 23) by lia. now rewrite Z.mod_add by lia. }
    rewrite E1, E2. replace (2 ^ 8 * q + r / 2 ^ 23) with (r / 2 ^ 23 + q * 2 ^ 8) by lia. rewrite Z.mod_add by lia.
    pose proof (Z.div_mod r (2 ^ 23) ltac:(lia)) as D2. pose proof (Z.mod_pos_bound r (2 ^ 23) ltac:(lia)) as B2.
    assert (0 <= r / 2 ^ 23 < 2 ^ 8) as B3 by (split; [apply Z.div_pos; lia|apply Z.div_lt_upper_bound; lia]).
    rewrite (Z.mod_small (r / 2 ^ 23)) by exact B3.
    rewrite Z.ltb_lt. set (a := r / 2 ^ 23) in *. set (c := r mod 2 ^ 23) in *. lia.
Qed.
Lemma num_eqb_spec k x y : num_eqb k x y = true <-> go_equal k x y.
Proof.
  unfold go_equal. rewrite <- !is_nan_spec, !not_true_iff_false.
  assert (k <> KDouble -> k <> KFloat -> num_eqb k x y = (x =? y) /\ is_nan k x = false /\ is_nan k y = false /\ (float_zero k x -> False)) as O.
  { intros. destruct k; try contradiction; cbn; auto. }
  destruct (Bool.bool_dec (match k with KDouble | KFloat => true | _ => false end) true) as [K|K].
  - assert (num_eqb k x y = negb (is_nan k x) && negb (is_nan k y) && ((x =? y) || (is_zero k x && is_zero k y))) as -> by (destruct k; discriminate || reflexivity).
    rewrite !andb_true_iff, !negb_true_iff, orb_true_iff, andb_true_iff, Z.eqb_eq.
    assert (forall z, is_zero k z = true <-> float_zero k z) as Zz.
    { intros z. destruct k; try discriminate; cbn [is_zero float_zero]; rewrite orb_true_iff, !Z.eqb_eq; reflexivity. }
    rewrite !Zz. tauto.
  - destruct O as (-> & -> & -> & Q); [intros ->; now apply K|intros ->; now apply K|]. rewrite Z.eqb_eq. tauto.
Qed.

(** * Identical values *)
Fixpoint val_eqb_eq (a : val) : forall b, val_eqb a b = true -> a = b.
Proof.
  assert (forall (P : val -> Prop) l, (forall x, P x) -> Forall P l) as AL by (intros P l Hx; induction l; constructor; auto).
  destruct a as [|z|s|s|x|l|l|n x|s u h|o s|o s]; intros b H; destruct b; try discriminate H; cbn [val_eqb] in H.
  - reflexivity.
  - apply Z.eqb_eq in H. now subst.
  - destruct (list_eq_dec Z.eq_dec s s0); [now subst|discriminate].
  - destruct (list_eq_dec Z.eq_dec s s0); [now subst|discriminate].
  - f_equal. now apply val_eqb_eq.
  - f_equal. revert l0 H. induction l as [|x l IH]; intros [|y l'] H; try discriminate; [reflexivity|].
    apply andb_true_iff in H as [H1 H2]. f_equal; [now apply val_eqb_eq|now apply IH].
  - f_equal. revert l0 H. induction l as [|[k x] l IH]; intros [|[k' y] l'] H; try discriminate; [reflexivity|].
    apply andb_true_iff in H as [H H2]. apply andb_true_iff in H as [H0 H1]. f_equal; [|now apply IH].
    f_equal; now apply val_eqb_eq.
  - apply andb_true_iff in H as [H1 H2]. apply Z.eqb_eq in H1. subst. f_equal. now apply val_eqb_eq.
  - apply andb_true_iff in H as [H H3]. apply andb_true_iff in H as [H1 H2].
    destruct (list_eq_dec Z.eq_dec u unk); [subst|discriminate]. f_equal.
    + clear H3. revert slots H1. induction s as [|x l IH]; intros [|y l'] H; try discriminate; [reflexivity|].
      apply andb_true_iff in H as [H1 H3]. f_equal; [now apply val_eqb_eq|now apply IH].
    + clear H1. revert hid H3. induction h as [|x l IH]; intros [|y l'] H; try discriminate; [reflexivity|].
      apply andb_true_iff in H as [H1 H3]. f_equal; [|now apply IH]. clear -H1 val_eqb_eq.
      revert y H1. induction x as [|x l IH]; intros [|y l'] H; try discriminate; [reflexivity|].
      apply andb_true_iff in H as [H1 H3]. f_equal; [now apply val_eqb_eq|now apply IH].
  - apply andb_true_iff in H as [H1 H2]. apply Z.eqb_eq in H1. subst. destruct (list_eq_dec Z.eq_dec s s0); [now subst|discriminate].
  - apply andb_true_iff in H as [H1 H2]. apply Z.eqb_eq in H1. subst. destruct (list_eq_dec Z.eq_dec s s0); [now subst|discriminate].
Qed.
Fixpoint val_eqb_refl (a : val) : val_eqb a a = true.
Proof.
  assert (forall s : list Z, (if list_eq_dec Z.eq_dec s s then true else false) = true) as SE
    by (intros s; destruct (list_eq_dec Z.eq_dec s s); congruence).
  destruct a as [|z|s|s|x|l|l|n x|s u h|o s|o s]; cbn [val_eqb]; rewrite ?Z.eqb_refl, ?SE; try reflexivity.
  - apply val_eqb_refl.
  - induction l as [|x l IH]; [reflexivity|]. rewrite val_eqb_refl. exact IH.
  - induction l as [|[k x] l IH]; [reflexivity|]. rewrite !val_eqb_refl. exact IH.
  - now rewrite val_eqb_refl.
  - rewrite andb_true_r. apply andb_true_iff. split.
    + induction s as [|x l IH]; [reflexivity|]. rewrite val_eqb_refl. exact IH.
    + induction h as [|x l IH]; [reflexivity|]. apply andb_true_iff. split; [|exact IH]. clear -val_eqb_refl.
      induction x as [|x l IH]; [reflexivity|]. rewrite val_eqb_refl. exact IH.
Qed.
Lemma str_eqb_iff a b : str_eqb a b = true <-> a = b.
Proof. unfold str_eqb. destruct (list_eq_dec Z.eq_dec a b); split; congruence. Qed.

(** * The relation *)
Section Rel.
Variable sc : schema.
Variable o : list step -> bool.
Notation up_eq := (up_eq (sc_up sc)).

Inductive eqv : list step -> step -> kind -> val -> val -> Prop :=
| ev_num p st k x y : is_num k = true -> num_eqb k x y = true -> eqv p st k (VInt x) (VInt y)
| ev_text p st k a b : k = KString \/ k = KBytes -> vbytes a = vbytes b -> eqv p st k a b
| ev_nil p st k m : sub_of k = Some m -> eqv p st k VNil VNil
| ev_ptr p st k m a : sub_of k = Some m -> o (st :: p) = true -> a <> VNil -> eqv p st k a a
| ev_msg p st k m a b : sub_of k = Some m -> md_foreign (md_of sc m) = false ->
    eqm (st :: p) m (or_empty sc m a) (or_empty sc m b) -> eqv p st k a b
| ev_up p st k m a b : sub_of k = Some m -> md_foreign (md_of sc m) = true ->
    up_eq m (or_empty sc m a) (or_empty sc m b) = true -> eqv p st k a b
with eql : list step -> nat -> kind -> nat -> list val -> list val -> Prop :=
| el_nil p s k i : eql p s k i [] []
| el_cons p s k i x y l l' : eqv p (SElem s i) k x y -> eql p s k (S i) l l' -> eql p s k i (x :: l) (y :: l')
with eqf : list step -> fdesc -> val -> val -> Prop :=
| ef_implicit p f k a b : f_ty f = TField LImplicit k -> eqv p (SField (f_slot f)) k a b -> eqf p f a b
| ef_unset p f l k : f_ty f = TField l k -> l = LOptional \/ l = LRequired -> sub_of k = None -> eqf p f VNil VNil
| ef_set p f l k a b : f_ty f = TField l k -> l = LOptional \/ l = LRequired -> sub_of k = None ->
    a <> VNil -> b <> VNil -> eqv p (SField (f_slot f)) k (deref a) (deref b) -> eqf p f a b
| ef_msg p f l k m a b : f_ty f = TField l k -> l = LOptional \/ l = LRequired -> sub_of k = Some m ->
    md_foreign (md_of sc m) = false -> eqm (SField (f_slot f) :: p) m a b -> eqf p f a b
| ef_up p f l k m a b : f_ty f = TField l k -> l = LOptional \/ l = LRequired -> sub_of k = Some m ->
    md_foreign (md_of sc m) = true -> up_eq m a b = true -> eqf p f a b
| ef_list p f q k a b : f_ty f = TField (LRepeated q) k -> eql p (f_slot f) k 0 (vlist a) (vlist b) -> eqf p f a b
| ef_map p f kk vk a b : f_ty f = TMap kk vk -> length (vmap a) = length (vmap b) ->
    NoDup (map fst (vmap a)) -> NoDup (map fst (vmap b)) ->
    (forall e, In e (vmap a) -> exists y, In (fst e, y) (vmap b) /\ eqv p (SKey (f_slot f) (fst e)) vk (snd e) y) -> eqf p f a b
with eqo : list step -> mdesc -> nat -> val -> val -> Prop :=
| eo_none p md s : eqo p md s VNil VNil
| eo_wrap p md s n x : o (SWrap s :: p) = true -> eqo p md s (VOneof n x) (VOneof n x)
| eo_member p md s g k x y : In g (md_fields md) -> f_slot g = s -> f_ty g = TField LOneof k ->
    eqv p (SField s) k x y -> eqo p md s (VOneof (f_num g) x) (VOneof (f_num g) y)
with eqm : list step -> nat -> val -> val -> Prop :=
| em_nil p m : eqm p m VNil VNil
| em_ptr p m a : o p = true -> a <> VNil -> eqm p m a a
| em_msg p m s u h s' u' h' :
    (forall f, In f (md_fields (md_of sc m)) -> is_oneof f = false -> eqf p f (slot s (f_slot f)) (slot s' (f_slot f))) ->
    (forall f, In f (md_fields (md_of sc m)) -> is_oneof f = true -> eqo p (md_of sc m) (f_slot f) (slot s (f_slot f)) (slot s' (f_slot f))) ->
    (md_keep (md_of sc m) = true -> u = u') ->
    eqm p m (VMsg s u h) (VMsg s' u' h').
End Rel.

(** * EqualVT computes it *)
Lemma zero_depth t : vdepth (zero_of t) = 0%nat.
Proof. destruct t as [[] k|]; try reflexivity; destruct k; reflexivity. Qed.
Lemma new_depth md : (vdepth (new_msg md) <= 1)%nat.
Proof.
  unfold new_msg. cbn [vdepth]. apply le_n_S. unfold zero_slots. induction (seq 0 (md_nslots md)) as [|i l IH]; cbn [map fold_right]; [lia|].
  unfold zero_slot at 1. destruct (find (fun f => Nat.eqb (f_slot f) i) (md_fields md)); [rewrite zero_depth|cbn [vdepth]]; lia.
Qed.

Section Fun.
Variable sc : schema.
Variable o : list step -> bool.
Hypothesis W : wf_schema sc = true.
Notation up_eq := (up_eq (sc_up sc)).

Lemma ptr_eqb_iff b x y : ptr_eqb b x y = true <-> (x = VNil /\ y = VNil) \/ (b = true /\ x <> VNil /\ x = y).
Proof.
  unfold ptr_eqb. destruct (is_nil x) eqn:Nx; [destruct x; try discriminate; destruct y; (split; [intros H; try discriminate; now left|intros [[_ ?]|(_ & ? & ?)]; congruence || reflexivity])|].
  destruct (is_nil y) eqn:Ny.
  { destruct y; try discriminate. split; [destruct x; discriminate|]. intros [[-> _]|(_ & ? & ->)]; discriminate. }
  assert (match x, y with VNil, VNil => true | VNil, _ | _, VNil => false | _, _ => b && val_eqb x y end = b && val_eqb x y) as -> by (destruct x; try discriminate; destruct y; try discriminate; reflexivity).
  rewrite andb_true_iff. split.
  - intros [-> H]. right. apply val_eqb_eq in H. split; [reflexivity|]. split; [intros ->; discriminate|assumption].
  - intros [[-> _]|(-> & _ & ->)]; [discriminate|]. split; [reflexivity|apply val_eqb_refl].
Qed.

(** Well-typed keys. *)
Lemma key_eqb_wt kk a b : key_kind kk = true -> wt_elem sc kk a -> wt_elem sc kk b -> key_eqb a b = true <-> a = b.
Proof.
  intros K Ta Tb. inversion Ta; subst; try (destruct kk; discriminate); inversion Tb; subst; try (destruct kk; discriminate); try discriminate; cbn.
  - rewrite Z.eqb_eq. split; congruence.
  - destruct (list_eq_dec Z.eq_dec s s0); split; congruence.
Qed.
Lemma map_get_iff kk l k y : key_kind kk = true -> wt_elem sc kk k -> (forall e, In e l -> wt_elem sc kk (fst e)) -> NoDup (map fst l) ->
  map_get l k = Some y <-> In (k, y) l.
Proof.
  intros K Tk. induction l as [|[k' x] l IH]; cbn [map_get map fst]; intros Tl ND; [split; [discriminate|intros []]|].
  inversion ND as [|? ? Ni ND']; subst. pose proof (key_eqb_wt kk k k' K Tk (Tl (k', x) (or_introl eq_refl))) as KE.
  destruct (key_eqb k k') eqn:E.
  - assert (k = k') by now apply KE. subst. split; [intros [= ->]; now left|]. intros [[= ->]|H]; [reflexivity|].
    exfalso. apply Ni. apply in_map with (f := fst) in H. exact H.
  - rewrite IH; [|intros; apply Tl; now right|assumption]. split; [now right|]. intros [[= -> ->]|H]; [|assumption].
    exfalso. discriminate (proj2 KE eq_refl).
Qed.

Section Level.
Variable n : nat.
Hypothesis IH : forall path m a b, (S (vdepth a) < n)%nat -> (S (vdepth b) < n)%nat -> wt_ptrmsg sc m a -> wt_ptrmsg sc m b ->
  md_foreign (md_of sc m) = false -> (equal_msg sc o n path m a b = true <-> eqm sc o path m a b).
Variable path : list step.
Notation same := (fun st => o (st :: path)).
Notation rec := (fun st => equal_msg sc o n (st :: path)).

Lemma or_empty_wt m v : wt_ptrmsg sc m v -> wt_ptrmsg sc m (or_empty sc m v).
Proof. intros [->|T]; right; [apply (TargetFacts.target_new sc W m)|]. destruct T. now constructor. Qed.

Lemma call_iff st m a b : (S (vdepth a) < n)%nat -> (S (vdepth b) < n)%nat -> wt_ptrmsg sc m a -> wt_ptrmsg sc m b ->
  (call sc rec st m a b = true <-> (md_foreign (md_of sc m) = true /\ up_eq m a b = true) \/ (md_foreign (md_of sc m) = false /\ eqm sc o (st :: path) m a b)).
Proof.
  intros. unfold call. destruct (md_foreign (md_of sc m)) eqn:F; [intuition congruence|].
  rewrite IH by assumption. intuition congruence.
Qed.

Lemma scalar_iff st k a b : sub_of k = None -> wt_elem sc k a -> wt_elem sc k b ->
  (compareKind sc same rec st k false a b = true <-> eqv sc o path st k a b).
Proof.
  intros Sk Ta Tb.
  assert (forall H : eqv sc o path st k a b, (is_num k = true /\ exists x y, a = VInt x /\ b = VInt y /\ num_eqb k x y = true) \/ ((k = KString \/ k = KBytes) /\ vbytes a = vbytes b)) as INV.
  { intros H. inversion H; subst; try congruence; [left; eauto 6|right; auto]. }
  unfold compareKind. destruct (is_num k) eqn:N.
  - destruct (wt_elem_num sc k a N Ta) as (x & -> & _). destruct (wt_elem_num sc k b N Tb) as (y & -> & _).
    replace (match classify k with CByt => compareBytes false (VInt x) (VInt y) | CMsg m0 | CGrp m0 => compareCall sc same rec st m0 false (VInt x) (VInt y) | _ => compareScalar k false (VInt x) (VInt y) end)
      with (num_eqb k x y) by (destruct k; try discriminate; reflexivity).
    split; [intros H; now apply ev_num|]. intros H. apply INV in H as [(_ & x' & y' & [= <-] & [= <-] & H)|([->| ->] & _)]; [exact H|discriminate|discriminate].
  - assert (k = KString \/ k = KBytes) as K by (destruct k; try discriminate; auto).
    replace (match classify k with CByt => compareBytes false a b | CMsg m0 | CGrp m0 => compareCall sc same rec st m0 false a b | _ => compareScalar k false a b end)
      with (str_eqb (vbytes a) (vbytes b)) by (destruct K; subst; reflexivity).
    rewrite str_eqb_iff. split; [now apply ev_text|]. intros H. now apply INV in H as [[? _]|[_ ?]].
Qed.

(** Values in containers. *)
Lemma value_iff st k a b : (S (S (vdepth a)) < n)%nat -> (S (S (vdepth b)) < n)%nat -> wt_elem sc k a -> wt_elem sc k b ->
  (compareKind sc same rec st k false a b = true <-> eqv sc o path st k a b).
Proof.
  intros Da Db Ta Tb. destruct (sub_of k) as [m|] eqn:Sk; [|now apply scalar_iff]. unfold compareKind.
  pose proof (wt_elem_sub sc k m a Sk Ta) as Wa. pose proof (wt_elem_sub sc k m b Sk Tb) as Wb.
  replace (match classify k with CByt => compareBytes false a b | CMsg m0 | CGrp m0 => compareCall sc same rec st m0 false a b | _ => compareScalar k false a b end)
    with (compareCall sc same rec st m false a b) by (destruct k; try discriminate; injection Sk as ->; reflexivity).
  unfold compareCall. change (denil sc m) with (or_empty sc m).
  destruct (ptr_eqb (o (st :: path)) a b) eqn:Pe.
  + split; [intros _|reflexivity]. apply ptr_eqb_iff in Pe as [[-> ->]|(Eo & Na & ->)]; [eapply ev_nil; eauto|eapply ev_ptr; eauto].
  + assert (forall x, (S (S (vdepth x)) < n)%nat -> S (vdepth (or_empty sc m x)) < n)%nat as OD.
    { intros x Hx. unfold or_empty. pose proof (new_depth (md_of sc m)). destruct x; lia. }
    rewrite call_iff by auto using or_empty_wt. split.
    * intros [[F U]|[F U]]; [eapply ev_up; eauto|eapply ev_msg; eauto].
    * intros H. inversion H as [? ? ? ? ? N|? ? ? ? ? K|? ? ? ? S1|? ? ? ? ? S1 Eo Na|? ? ? m' ? ? S1 F U|? ? ? m' ? ? S1 F U]; subst.
      -- destruct k; discriminate.
      -- destruct K; subst; discriminate.
      -- discriminate Pe.
      -- rewrite (proj2 (ptr_eqb_iff _ b b)) in Pe; [discriminate|auto].
      -- replace m' with m in * by congruence. auto.
      -- replace m' with m in * by congruence. auto.
Qed.

Lemma list_iff s k l : forall i l', length l = length l' -> (forall x, In x l \/ In x l' -> (S (S (vdepth x)) < n)%nat /\ wt_elem sc k x) ->
  (equal_list sc same rec s k i l l' = true <-> eql sc o path s k i l l').
Proof.
  induction l as [|x l IHl]; intros i [|y l'] L H; try discriminate; cbn [equal_list].
  - split; [constructor|reflexivity].
  - injection L as L. rewrite andb_true_iff, value_iff, IHl by (auto; try (apply H; cbn; tauto); intros z Hz; apply H; cbn; tauto).
    split; [intros []; now constructor|]. intros Q. inversion Q; subst. auto.
Qed.
Lemma eql_length s k l : forall i l', eql sc o path s k i l l' -> length l = length l'.
Proof. induction l as [|x l IHl]; intros i l' H; inversion H; subst; cbn; [reflexivity|f_equal; eauto]. Qed.
Lemma zlen_eqb {A B} (l : list A) (l' : list B) : (zlen l =? zlen l') = true <-> length l = length l'.
Proof. unfold zlen. rewrite Z.eqb_eq. lia. Qed.

Lemma field_iff m f a b : In f (md_fields (md_of sc m)) -> is_oneof f = false -> (S (vdepth a) < n)%nat -> (S (vdepth b) < n)%nat ->
  wt_field sc (md_of sc m) f a -> wt_field sc (md_of sc m) f b ->
  (equal_field sc same rec f a b = true <-> eqf sc o path f a b).
Proof.
  intros Hf O Da Db Ta Tb. pose proof (wf_ty sc m f W Hf) as WT. apply wt_field_inv in Ta. apply wt_field_inv in Tb. unfold equal_field.
  assert (forall l k, f_ty f = TField l k -> l = LOptional \/ l = LRequired ->
    (a = VNil \/ (exists x, a = VPtr x /\ (is_num k = true \/ k = KString) /\ wt_elem sc k x) \/ (is_num k = false /\ k <> KString /\ wt_elem sc k a)) ->
    (b = VNil \/ (exists x, b = VPtr x /\ (is_num k = true \/ k = KString) /\ wt_elem sc k x) \/ (is_num k = false /\ k <> KString /\ wt_elem sc k b)) ->
    (compareKind sc same rec (SField (f_slot f)) k true a b = true <-> eqf sc o path f a b)) as OPT.
  { clear Ta Tb WT. intros l k Ty L Ta Tb. destruct (sub_of k) as [ms|] eqn:Sk.
    - assert (forall x, x = VNil \/ (exists y, x = VPtr y /\ (is_num k = true \/ k = KString) /\ wt_elem sc k y) \/ (is_num k = false /\ k <> KString /\ wt_elem sc k x) -> wt_ptrmsg sc ms x) as PM.
      { intros x [->|[(y & _ & [N| ->] & _)|(_ & _ & T)]]; [now left|destruct k; discriminate|discriminate|]. exact (wt_elem_sub sc k ms x Sk T). }
      apply PM in Ta. apply PM in Tb. clear PM. unfold compareKind.
      replace (match classify k with CByt => compareBytes true a b | CMsg m0 | CGrp m0 => compareCall sc same rec (SField (f_slot f)) m0 true a b | _ => compareScalar k true a b end)
        with (call sc rec (SField (f_slot f)) ms a b) by (destruct k; try discriminate; injection Sk as ->; reflexivity).
      rewrite call_iff by assumption. split.
      + intros [[F U]|[F U]]; [eapply ef_up; eauto|eapply ef_msg; eauto].
      + intros H. inversion H; subst; tys;
          try (destruct L; discriminate); try congruence;
          match goal with Q : sub_of ?k' = Some ?m', Q' : sub_of ?k' = Some ?m'' |- _ => assert (m' = m'') by congruence; subst end; auto.
    - pose proof (fun x y => scalar_iff (SField (f_slot f)) k x y Sk) as SI.
      assert (eqf sc o path f a b <-> (a = VNil /\ b = VNil) \/ (a <> VNil /\ b <> VNil /\ eqv sc o path (SField (f_slot f)) k (deref a) (deref b))) as FI.
      { split.
        - intros H. inversion H; subst; tys;
            try (destruct L; discriminate); try congruence; auto.
        - intros [[-> ->]|(Na & Nb & V)]; [eapply ef_unset; eauto|eapply ef_set; eauto]. }
      rewrite FI. clear FI.
      destruct Ta as [->|[(x & -> & Kx & Tx)|(Kx & Kx' & Tx)]].
      + assert (compareKind sc same rec (SField (f_slot f)) k true VNil b = is_nil b) as ->.
        { unfold compareKind, compareScalar, compareBytes. destruct Tb as [->|[(y & -> & Ky & Ty')|(Ky & Ky' & Ty')]].
          - destruct k; try discriminate; reflexivity.
          - destruct k; try discriminate; try reflexivity; destruct Ky; discriminate.
          - destruct k; try discriminate; try contradiction. inversion Ty'; subst; try discriminate; reflexivity. }
        split; [intros N; left; destruct b; try discriminate; auto|intros [[_ ->]|(N & _)]; [reflexivity|congruence]].
      + destruct Tb as [->|[(y & -> & Ky & Ty')|(Ky & Ky' & _)]].
        * split; [|intros [[? _]|(_ & ? & _)]; congruence]. unfold compareKind, compareScalar, compareBytes.
          destruct k; try discriminate; destruct Kx; discriminate.
        * cbn [deref]. rewrite <- SI by assumption.
          assert (compareKind sc same rec (SField (f_slot f)) k true (VPtr x) (VPtr y) = compareKind sc same rec (SField (f_slot f)) k false x y) as ->.
          { unfold compareKind, compareScalar, compareBytes. destruct k; try discriminate; try (destruct Kx; discriminate); cbn [classify is_nil deref negb andb orb]; now rewrite Bool.negb_involutive. }
          split; [intros ?; right; repeat split; congruence|intros [[? _]|(_ & _ & ?)]; congruence].
        * exfalso. destruct Kx; congruence.
      + destruct k; try discriminate; try contradiction.
        destruct Tb as [->|[(y & -> & [Ky|Ky] & Ty')|(Ky & _ & Ty')]]; try discriminate.
        * split; [|intros [[-> _]|(_ & ? & _)]; [reflexivity|congruence]]. inversion Tx; subst; try discriminate. auto.
        * inversion Tx; subst; try discriminate; inversion Ty'; subst; try discriminate.
          -- cbn [deref]. rewrite <- SI by assumption. unfold compareKind, compareBytes. cbn [classify is_nil deref negb andb orb]. rewrite Bool.negb_involutive.
             split; [intros ?; right; repeat split; congruence|intros [[? _]|(_ & _ & ?)]; congruence].
          -- split; [discriminate|intros [[? _]|(_ & ? & _)]; congruence].
          -- split; [discriminate|intros [[_ ?]|(? & _ & _)]; congruence].
          -- split; [auto|reflexivity]. }
  destruct (f_ty f) as [lbl k|kk vk] eqn:Ty.
  - destruct lbl as [| | |q|]; [| | | |unfold is_oneof in O; rewrite Ty in O; discriminate].
    + assert (sub_of k = None) as Sk by (cbn in WT; apply andb_true_iff in WT as [_ WT]; destruct (sub_of k); [discriminate|reflexivity]).
      replace (match classify k with CMsg _ | CGrp _ => true | _ => false end) with false by (destruct k; try discriminate; reflexivity).
      rewrite scalar_iff by assumption. split; [intros; eapply ef_implicit; eauto|]. intros H.
      inversion H; subst; tys;
        try match goal with L : LImplicit = _ \/ _ |- _ => destruct L; discriminate end; assumption.
    + rewrite <- (OPT LOptional k eq_refl (or_introl eq_refl) Ta Tb). destruct k; reflexivity.
    + rewrite <- (OPT LRequired k eq_refl (or_intror eq_refl) Ta Tb). destruct k; reflexivity.
    + rewrite andb_true_iff, zlen_eqb.
      assert (forall x, In x (vlist a) \/ In x (vlist b) -> (S (S (vdepth x)) < n)%nat /\ wt_elem sc k x) as EL.
      { intros x [Hx|Hx].
        - destruct Ta as [->|(l & -> & Tl)]; [destruct Hx|]. pose proof (depth_list x l Hx). split; [lia|now apply Tl].
        - destruct Tb as [->|(l & -> & Tl)]; [destruct Hx|]. pose proof (depth_list x l Hx). split; [lia|now apply Tl]. }
      split.
      * intros [L H]. eapply ef_list; [eassumption|]. now apply list_iff.
      * intros H. inversion H; subst; tys;
          try match goal with L : LRepeated _ = _ \/ _ |- _ => destruct L; discriminate end.
        match goal with Q : eql _ _ _ _ _ _ _ _ |- _ => pose proof (eql_length _ _ _ _ _ Q) as L; split; [exact L|]; apply list_iff; assumption end.
  - cbn in WT. apply andb_true_iff in WT as [WT _]. apply andb_true_iff in WT as [KK _].
    assert (forall v, (v = VNil \/ (exists l, v = VMap l /\ (forall e, In e l -> wt_elem sc kk (fst e)) /\ (forall e, In e l -> wt_elem sc vk (snd e)) /\ NoDup (map fst l))) ->
      (S (vdepth v) < n)%nat -> NoDup (map fst (vmap v)) /\ forall e, In e (vmap v) -> wt_elem sc kk (fst e) /\ wt_elem sc vk (snd e) /\ (S (S (vdepth (snd e))) < n)%nat) as MP.
    { intros v [->|(l & -> & T1 & T2 & ND)] D; cbn [vmap]; [split; [constructor|intros e []]|]. split; [assumption|].
      intros e He. pose proof (depth_map e l He). split; [auto|]. split; [auto|lia]. }
    destruct (MP a Ta Da) as [NDa Ea]. destruct (MP b Tb Db) as [NDb Eb]. clear MP.
    assert (equal_map sc same rec (f_slot f) vk (vmap a) (vmap b) = true <->
      forall e, In e (vmap a) -> exists y, In (fst e, y) (vmap b) /\ eqv sc o path (SKey (f_slot f) (fst e)) vk (snd e) y) as EM.
    { unfold equal_map. rewrite forallb_forall. 
      assert (forall e y, In e (vmap a) -> map_get (vmap b) (fst e) = Some y <-> In (fst e, y) (vmap b)) as MG.
      { intros e y He. apply (map_get_iff kk); [assumption|now apply Ea|intros e' He'; now apply Eb|assumption]. }
      split; intros H e He; specialize (H e He).
      - destruct (map_get (vmap b) (fst e)) as [y|] eqn:Mg; [|discriminate]. apply MG in Mg; [|assumption]. exists y. split; [assumption|].
        apply value_iff in H; [assumption|now apply Ea| |now apply Ea|]; apply (Eb _ Mg).
      - destruct H as (y & Hy & V). pose proof Hy as Hy'. apply MG in Hy'; [|assumption]. rewrite Hy'.
        apply value_iff; [now apply Ea| |now apply Ea| |assumption]; apply (Eb _ Hy). }
    rewrite andb_true_iff, zlen_eqb, EM. split.
    + intros [L H]. eapply ef_map; eauto.
    + intros H. inversion H; subst; tys. auto.
Qed.

Lemma oneof_iff m f a b : In f (md_fields (md_of sc m)) -> is_oneof f = true -> (S (vdepth a) < n)%nat -> (S (vdepth b) < n)%nat ->
  wt_field sc (md_of sc m) f a -> wt_field sc (md_of sc m) f b ->
  (equal_oneof sc same rec (md_of sc m) (f_slot f) a b = true <-> eqo sc o path (md_of sc m) (f_slot f) a b).
Proof.
  intros Hf O Da Db Ta Tb. apply wt_field_inv in Ta. apply wt_field_inv in Tb. unfold is_oneof in O.
  destruct (f_ty f) as [[| | |q|] k|] eqn:Ty; try discriminate. clear O.
  destruct Ta as [->|(g & kg & x & -> & Hg & Sg & Tg & Tx)]; destruct Tb as [->|(g' & kg' & y & -> & Hg' & Sg' & Tg' & Ty')]; cbn [equal_oneof].
  - split; [constructor|reflexivity].
  - split; [discriminate|intros H; inversion H].
  - split; [discriminate|intros H; inversion H].
  - cbn [vdepth] in Da, Db. destruct (f_num g =? f_num g') eqn:En.
    2:{ split; [discriminate|]. intros H. inversion H; subst; lia. }
    apply Z.eqb_eq in En. assert (g = g') as <- by (eapply wf_num_inj; eauto). rewrite Tg in Tg'. injection Tg' as <-.
    assert (find_field (f_num g) (md_fields (md_of sc m)) = Some g) as FF by (eapply find_field_in; eauto).
    rewrite FF, Tg.
    destruct (o (SWrap (f_slot f) :: path) && val_eqb (VOneof (f_num g) x) (VOneof (f_num g) y)) eqn:Pe.
    + split; [intros _|reflexivity]. apply andb_true_iff in Pe as [Eo E]. apply val_eqb_eq in E. injection E as <-. now apply eo_wrap.
    + rewrite value_iff by (assumption || lia). split.
      * intros V. eapply eo_member; eauto.
      * intros H. inversion H as [|? ? ? ? ? Eo|? ? ? g2 k2 ? ? Hg2 Sg2 Tg2 V]; subst.
        -- rewrite Eo, val_eqb_refl in Pe. discriminate.
        -- assert (g2 = g) by (eapply wf_num_inj; eauto). subst. congruence.
Qed.
End Level.

Theorem equal_msg_iff n : forall path m a b, (S (vdepth a) < n)%nat -> (S (vdepth b) < n)%nat -> wt_ptrmsg sc m a -> wt_ptrmsg sc m b ->
  md_foreign (md_of sc m) = false -> (equal_msg sc o n path m a b = true <-> eqm sc o path m a b).
Proof.
  induction n as [|n IH]; intros path m a b Da Db Ta Tb F; [lia|]. cbn [equal_msg]. unfold equal_body.
  destruct (ptr_eqb (o path) a b) eqn:Pe.
  { split; [intros _|reflexivity]. apply ptr_eqb_iff in Pe as [[-> ->]|(Eo & Na & ->)]; [apply em_nil|now apply em_ptr]. }
  destruct Ta as [->|Ta].
  { split; [discriminate|]. intros H. inversion H; subst; [discriminate Pe|congruence]. }
  destruct Tb as [->|Tb].
  { split; [destruct a; discriminate|]. intros H. inversion H; subst; [discriminate Pe|congruence]. }
  destruct Ta as [m s u h Ls Fs Bu]. destruct Tb as [m s' u' h' Ls' Fs' Bu']. cbv zeta.
  set (fs := md_fields (md_of sc m)) in *.
  assert (forall i, (S (vdepth (slot s i)) < n)%nat) as Ds by (intros i; pose proof (depth_slot s i u h); lia).
  assert (forall i, (S (vdepth (slot s' i)) < n)%nat) as Ds' by (intros i; pose proof (depth_slot s' i u' h'); lia).
  assert (forallb (fun i => equal_oneof sc (fun st => o (st :: path)) (fun st => equal_msg sc o n (st :: path)) (md_of sc m) i (slot s i) (slot s' i)) (oneof_slots [] (sort_fields fs)) = true
    <-> forall f, In f fs -> is_oneof f = true -> eqo sc o path (md_of sc m) (f_slot f) (slot s (f_slot f)) (slot s' (f_slot f))) as A1.
  { rewrite forallb_forall. split.
    - intros H f Hf O. apply (oneof_iff n IH path m f); auto. apply H. apply oneof_slots_in. split; [intros []|]. exists f. split; [now apply (Permutation_in f (Permutation_sym (sort_perm fs)))|auto].
    - intros H i Hi. apply oneof_slots_in in Hi as (_ & f & Hf & O & <-). apply (Permutation_in f (sort_perm fs)) in Hf.
      apply (oneof_iff n IH path m f); auto. }
  assert (forallb (fun f => equal_field sc (fun st => o (st :: path)) (fun st => equal_msg sc o n (st :: path)) f (slot s (f_slot f)) (slot s' (f_slot f))) (filter (fun f => negb (is_oneof f)) (sort_fields fs)) = true
    <-> forall f, In f fs -> is_oneof f = false -> eqf sc o path f (slot s (f_slot f)) (slot s' (f_slot f))) as A2.
  { rewrite forallb_forall. split.
    - intros H f Hf O. apply (field_iff n IH path m f); auto. apply H. apply filter_In. rewrite O. split; [now apply (Permutation_in f (Permutation_sym (sort_perm fs)))|reflexivity].
    - intros H f Hf. apply filter_In in Hf as [Hf O]. apply negb_true_iff in O. apply (Permutation_in f (sort_perm fs)) in Hf.
      apply (field_iff n IH path m f); auto. }
  assert ((if md_keep (md_of sc m) then str_eqb u u' else true) = true <-> (md_keep (md_of sc m) = true -> u = u')) as A3.
  { destruct (md_keep (md_of sc m)); [rewrite str_eqb_iff; tauto|intuition discriminate]. }
  rewrite !andb_true_iff, A1, A2, A3. split.
  - intros [[H1 H2] H3]. now apply em_msg.
  - intros H. inversion H as [|? ? ? Eo|? ? ? ? ? ? ? ? H1 H2 H3]; subst; [|auto].
    rewrite (proj2 (ptr_eqb_iff _ _ _)) in Pe; [discriminate|]. right. split; [assumption|]. split; congruence.
Qed.

Corollary EqualVT_iff m a b : wt_ptrmsg sc m a -> wt_ptrmsg sc m b -> md_foreign (md_of sc m) = false ->
  (EqualVT sc o m a b = true <-> eqm sc o [] m a b).
Proof. intros. unfold EqualVT. apply equal_msg_iff; auto; lia. Qed.
End Fun.
