(** What a program with an older schema makes of a newer program's bytes. *)
From Coq Require Import ZArith List Bool Lia Permutation.
From Verif Require Import Base BaseFacts Schema Value WireSpec Typing RecordSpec MsgSpec DecodeSpec ContentSpec EvolveSpec
  VarintFacts NumFacts MarshalFacts DecodeFacts TargetFacts SameFacts RoundTrip.
Import ListNotations.
Open Scope Z_scope.

Lemma vlist_append old xs : vlist (append old xs) = vlist old ++ xs.
Proof. destruct xs; [now rewrite app_nil_r|reflexivity]. Qed.

Section Local.
Variable sc : schema.
(** A record changes the struct member of its field only, whatever the others hold. *)
Lemma record_cases m num c s u h v1 : dec_record sc m num c (VMsg s u h) v1 ->
  (exists f y, In f (md_fields (md_of sc m)) /\ f_num f = num /\ v1 = VMsg (put s (f_slot f) y) u h /\
     forall s' u', slot s' (f_slot f) = slot s (f_slot f) -> dec_record sc m num c (VMsg s' u' []) (VMsg (put s' (f_slot f) y) u' [])) \/
  (undeclared sc m num /\ (exists wt, record false num wt c) /\ v1 = VMsg s (if md_keep (md_of sc m) then u ++ c else u) h).
Proof.
  intros D. inversion D; subst;
    try (left; eexists _, _; split; [eassumption|]; split; [reflexivity|]; split; [reflexivity|]; intros s' u' E).
  - eapply dr_implicit; eauto.
  - eapply dr_present; eauto. now rewrite E.
  - eapply dr_oneof; eauto. now rewrite E.
  - rewrite <- E. eapply dr_repeated; eauto. intros _. now destruct (f_slot f).
  - rewrite <- E. eapply dr_packed; eauto.
  - eapply dr_map; eauto. now rewrite E.
  - right. eauto.
Qed.

Lemma value_record k old b x t num : dec_value sc k old b x -> is_tag t num (wire_of k) -> record false num (wire_of k) (t ++ b).
Proof.
  intros D T. inversion D as [? ? ? z N| | |]; subst.
  - unfold num_wire in N. destruct (wire_of k) as [|[p|[p|p|]|]|] eqn:Wk; try contradiction.
    + destruct N as (? & ? & _). now constructor.
    + destruct p as [p|[]|]; try contradiction. destruct N as [? _]. now constructor.
    + destruct N as [? _]. now constructor.
  - now constructor.
  - now constructor.
  - now constructor.
Qed.
Lemma chunk_record m num c v v1 : dec_record sc m num c v v1 -> exists wt, record false num wt c.
Proof.
  intros D. inversion D; subst; eauto; try (eexists; eapply value_record; eauto; fail).
  - exists 2. now constructor.
  - exists 2. now constructor.
Qed.
End Local.

Section Ev.
Variables so sn : schema.
Hypothesis Wo : wf_schema so = true.
Hypothesis Wn : wf_schema sn = true.
Hypothesis O : older so sn.
Notation oldf m := (md_fields (md_of so m)).
Notation newf m := (md_fields (md_of sn m)).

(** [rep m a x]: the message [a] of the older program stands for [x]: its fields stand
    for those of [x], and its unknown bytes give the fields it does not know. *)
Inductive repv : kind -> val -> val -> Prop :=
| rv_same k x : sub_of k = None -> repv k x x
| rv_nil k m : sub_of k = Some m -> repv k VNil VNil
| rv_up k m x : sub_of k = Some m -> md_foreign (md_of sn m) = true -> repv k x x
| rv_msg k m a x : sub_of k = Some m -> md_foreign (md_of sn m) = false -> rep m a x -> repv k a x
with repf : nat -> fdesc -> val -> val -> Prop :=
| rf_implicit m f k x : f_ty f = TField LImplicit k -> repf m f x x
| rf_unset m f l k : f_ty f = TField l k -> l = LOptional \/ l = LRequired -> repf m f VNil VNil
| rf_boxed m f l k z : f_ty f = TField l k -> l = LOptional \/ l = LRequired -> is_num k = true \/ k = KString -> repf m f (VPtr z) (VPtr z)
| rf_set m f l k a x : f_ty f = TField l k -> l = LOptional \/ l = LRequired -> is_num k = false -> k <> KString ->
    a <> VNil -> x <> VNil -> repv k a x -> repf m f a x
| rf_list m f p k a x : f_ty f = TField (LRepeated p) k -> Forall2 (repv k) (vlist a) (vlist x) -> repf m f a x
| rf_map m f kk vk a x : f_ty f = TMap kk vk ->
    Forall2 (fun e e' => fst e = fst e' /\ repv vk (snd e) (snd e')) (vmap a) (vmap x) -> repf m f a x
| rf_none m f k : f_ty f = TField LOneof k -> repf m f VNil VNil
| rf_member m f k0 g k a x : f_ty f = TField LOneof k0 -> In g (oldf m) -> f_slot g = f_slot f -> f_ty g = TField LOneof k ->
    repv k a x -> repf m f (VOneof (f_num g) a) (VOneof (f_num g) x)
with rep : nat -> val -> val -> Prop :=
| rep_msg m sw uw sv uv s1 nums : length sw = md_nslots (md_of so m) -> length sv = md_nslots (md_of sn m) ->
    length s1 = md_nslots (md_of sn m) ->
    (forall f, In f (oldf m) -> repf m f (slot sw (f_slot f)) (slot sv (f_slot f))) ->
    dec_fields sn m uw (new_msg (md_of sn m)) (VMsg s1 uv []) nums ->
    (forall f, In f (oldf m) -> ~ In (f_num f) nums) ->
    (forall f, In f (newf m) -> ~ In f (oldf m) -> slot s1 (f_slot f) = slot sv (f_slot f)) ->
    rep m (VMsg sw uw []) (VMsg sv uv []).

Lemma zero_rep m f : In f (oldf m) -> repf m f (zero_of (f_ty f)) (zero_of (f_ty f)).
Proof.
  intros Hf. destruct (f_ty f) as [l k|kk vk] eqn:Ty.
  - destruct l; cbn [zero_of].
    + eapply rf_implicit; eauto.
    + eapply rf_unset; eauto.
    + eapply rf_unset; eauto.
    + eapply rf_list; eauto. constructor.
    + eapply rf_none; eauto.
  - eapply rf_map; eauto. constructor.
Qed.
Lemma rep_new m : rep m (new_msg (md_of so m)) (new_msg (md_of sn m)).
Proof.
  unfold new_msg at 1 2. eapply rep_msg with (s1 := zero_slots (md_of sn m)) (nums := []);
    try (unfold zero_slots; rewrite map_length, seq_length; reflexivity); auto.
  - intros f Hf. rewrite (slot_zero so m f Wo Hf), (slot_zero sn m f Wn (old_fields _ _ O m f Hf)). now apply zero_rep.
  - constructor.
Qed.
Lemma fresh_rep k : repv k (fresh so k) (fresh sn k).
Proof.
  destruct k; try (apply rv_same; reflexivity); try (eapply rv_nil; reflexivity).
  cbn [fresh]. destruct (md_foreign (md_of sn m)) eqn:F.
  - rewrite (old_same _ _ O m F). eapply rv_up; eauto; reflexivity.
  - eapply rv_msg; [reflexivity|assumption|]. apply rep_new.
Qed.

(** Kept fields. *)
Lemma rep_put m f a x sw uw sv uv : rep m (VMsg sw uw []) (VMsg sv uv []) -> In f (oldf m) ->
  (forall g, In g (oldf m) -> f_slot g = f_slot f -> repf m g a x) ->
  rep m (VMsg (put sw (f_slot f) a) uw []) (VMsg (put sv (f_slot f) x) uv []).
Proof.
  intros R Hf HS. inversion R as [? ? ? ? ? s1 nums L1 L2 L3 H1 H2 H3 H4]; subst.
  assert (f_slot f < length sw)%nat as S1 by (rewrite L1; eapply wf_slot; eauto).
  assert (f_slot f < length sv)%nat as S2 by (rewrite L2, <- (old_slots _ _ O), <- L1; exact S1).
  eapply rep_msg; try rewrite put_length by assumption; eauto.
  - intros g Hg. destruct (Nat.eq_dec (f_slot f) (f_slot g)) as [E|E].
    + rewrite <- E, !put_slot by assumption. apply HS; auto.
    + rewrite !put_other by assumption. auto.
  - intros g Hg Ng. rewrite put_other; auto. eapply old_apart; eauto.
Qed.
Lemma rep_at m sw uw sv uv f : rep m (VMsg sw uw []) (VMsg sv uv []) -> In f (oldf m) -> repf m f (slot sw (f_slot f)) (slot sv (f_slot f)).
Proof. intros R Hf. inversion R; subst. auto. Qed.
Lemma alone m f : In f (oldf m) -> is_oneof f = false -> forall g, In g (oldf m) -> f_slot g = f_slot f -> g = f.
Proof.
  intros Hf Of g Hg E. destruct (field_dec g f) as [|Ne]; [assumption|].
  destruct (wf_compat so m f g Wo Hf Hg ltac:(congruence)) as [_ C]. destruct (C (eq_sym E)). congruence.
Qed.

(** Fields the older program does not know. *)
Lemma rep_unknown m num c sw uw sv uv v1 : md_foreign (md_of so m) = false -> rep m (VMsg sw uw []) (VMsg sv uv []) ->
  dec_record sn m num c (VMsg sv uv []) v1 -> (forall f, In f (oldf m) -> f_num f <> num) ->
  dec_record so m num c (VMsg sw uw []) (VMsg sw (uw ++ c) []) /\ rep m (VMsg sw (uw ++ c) []) v1.
Proof.
  intros F R D N. destruct (chunk_record _ _ _ _ _ _ D) as (wt & Rc).
  inversion R as [? ? ? ? ? s1 nums L1 L2 L3 H1 H2 H3 H4]; subst.
  assert (undeclared so m num) as U.
  { destruct (record_cases _ _ _ _ _ _ _ _ D) as [(f & y & Hf & En & _)|((U1 & U2 & U3) & _)].
    - split; [rewrite <- En; pose proof (wf_num sn m f Wn Hf); lia|]. split; [assumption|].
      intros r Hr. rewrite (proj1 (old_noext _ _ O m)) in Hr. destruct Hr.
    - split; [assumption|]. split; [assumption|]. intros r Hr. rewrite (proj1 (old_noext _ _ O m)) in Hr. destruct Hr. }
  split.
  { pose proof (dr_unknown so m num wt c sw uw [] U Rc) as Q. now rewrite (old_keep _ _ O m F) in Q. }
  destruct (record_cases _ _ _ _ _ _ _ _ D) as [(f & y & Hf & En & -> & Loc)|(Un & _ & ->)].
  - assert (~ In f (oldf m)) as Nf by (intros Hi; now apply (N f Hi)).
    assert (f_slot f < md_nslots (md_of sn m))%nat as Sf by (eapply wf_slot; eauto).
    eapply rep_msg with (s1 := put s1 (f_slot f) y) (nums := nums ++ [num]); try rewrite put_length by lia; auto.
    + intros g Hg. rewrite put_other; [auto|lia|]. intros E. symmetry in E. revert E. eapply old_apart; eauto.
    + eapply fields_app; [exact H2|]. apply fields_one, Loc. auto.
    + intros g Hg. rewrite in_app_iff. intros [Hi|[Hi|[]]]; [now apply (H3 g Hg)|]. now apply (N g Hg).
    + intros g Hg Ng. destruct (Nat.eq_dec (f_slot f) (f_slot g)) as [E|E].
      * rewrite <- E, !put_slot by lia. reflexivity.
      * rewrite !put_other by lia. auto.
  - eapply rep_msg with (s1 := s1) (nums := nums ++ [num]); auto.
    + eapply fields_app; [exact H2|]. apply fields_one. eapply dr_unknown; eauto.
    + intros g Hg. rewrite in_app_iff. intros [Hi|[Hi|[]]]; [now apply (H3 g Hg)|]. now apply (N g Hg).
Qed.

Lemma map_put_rep vk lv k x lv' : map_put lv k x lv' -> forall lw xw, repv vk xw x ->
  Forall2 (fun e e' => fst e = fst e' /\ repv vk (snd e) (snd e')) lw lv ->
  exists lw', map_put lw k xw lw' /\ Forall2 (fun e e' => fst e = fst e' /\ repv vk (snd e) (snd e')) lw' lv'.
Proof.
  intros M lw xw R F. destruct M as [l k x N|l1 l2 k y x].
  - exists (lw ++ [(k, xw)]). split; [|apply Forall2_app; [assumption|repeat constructor; auto]]. apply mp_new.
    assert (map fst lw = map fst l) as -> by (clear -F; induction F as [|a b l l' [E _] F IH]; cbn; congruence). exact N.
  - apply Forall2_app_inv_r in F as (w1 & w2 & F1 & F2 & ->). inversion F2 as [|[k' a] ? w3 ? [E1 E2] F3]; subst. cbn in E1. subst k'.
    exists (w1 ++ (k, xw) :: w3). split; [constructor|]. apply Forall2_app; [assumption|]. constructor; auto.
Qed.

Lemma boxed_rep m f l k a x : f_ty f = TField l k -> l = LOptional \/ l = LRequired -> repv k a x -> (is_num k = true \/ k = KString -> a = x) ->
  a <> VNil -> x <> VNil -> repf m f (boxed k a) (boxed k x).
Proof.
  intros Ty L R E N1 N2. unfold boxed. destruct (is_num k) eqn:N; [rewrite E by auto; eapply rf_boxed; eauto|].
  assert (k = KString \/ k <> KString) as [->|K] by (destruct k; try (right; discriminate); now left).
  - rewrite E by auto. eapply rf_boxed; eauto.
  - destruct k; try discriminate; try congruence; eapply rf_set; eauto.
Qed.
Lemma repv_same k a x : sub_of k = None -> repv k a x -> a = x.
Proof. intros S R. inversion R; subst; congruence. Qed.
Lemma repv_nil k a x : repv k a x -> (a = VNil <-> x = VNil).
Proof.
  intros R. inversion R; subst; try tauto.
  match goal with H : rep _ _ _ |- _ => inversion H; subst end. split; discriminate.
Qed.
Lemma fields_nonnil sc m bs v v' nums : dec_fields sc m bs v v' nums -> v <> VNil -> v' <> VNil.
Proof. intros D. induction D; intros N; [assumption|]. apply IHD. match goal with H : dec_record _ _ _ _ _ _ |- _ => inversion H; subst end; discriminate. Qed.
Hypothesis UD : up_dec_ok sn.
Lemma decodes_nonnil m bs v v' : decodes sn m bs v v' -> v <> VNil -> v' <> VNil.
Proof.
  intros D N. inversion D; subst; [eapply fields_nonnil; eauto|].
  match goal with E : up_dec _ _ _ = Some _, F : md_foreign _ = true |- _ => destruct (up_dec_wt sn UD m _ _ F E) as [Wy _]; inversion Wy end. discriminate.
Qed.
Lemma value_nonnil k old b x : dec_value sn k old b x -> (old <> VNil \/ sub_of k = None) -> x <> VNil.
Proof. intros D N. inversion D; subst; try discriminate. eapply decodes_nonnil; eauto. destruct N as [N|N]; [exact N|discriminate]. Qed.

Lemma repv_up m a x : md_foreign (md_of sn m) = true -> repv (KMessage m) a x -> a = x.
Proof. intros F R. inversion R as [| | |k m' a' x' Sk F' _]; subst; try reflexivity. cbn in Sk. congruence. Qed.
Lemma repv_own m a s u h : md_foreign (md_of sn m) = false -> repv (KMessage m) a (VMsg s u h) ->
  exists sw uw, a = VMsg sw uw [] /\ h = [] /\ rep m (VMsg sw uw []) (VMsg s u []).
Proof.
  intros F R. inversion R as [k x Sk|k m' Sk|k m' x Sk F'|k m' a' x' Sk F' Rm]; subst; cbn in Sk; try congruence.
  injection Sk as <-. inversion Rm; subst. eauto 10.
Qed.
Lemma rep_own m a x : md_foreign (md_of sn m) = false -> rep m a x -> repv (KMessage m) a x.
Proof. intros. eapply rv_msg; eauto. reflexivity. Qed.
(** One record of a field the older program knows, or not. *)
Lemma known_or_not m f c s u h v1 a : md_foreign (md_of sn m) = false -> In f (newf m) ->
  dec_record sn m (f_num f) c (VMsg s u h) v1 -> repv (KMessage m) a (VMsg s u h) ->
  (forall sw uw, a = VMsg sw uw [] -> h = [] -> In f (oldf m) -> rep m (VMsg sw uw []) (VMsg s u []) ->
     exists y, dec_record so m (f_num f) c a y /\ repv (KMessage m) y v1) ->
  exists y, dec_record so m (f_num f) c a y /\ repv (KMessage m) y v1.
Proof.
  intros F Hf D R K. destruct (repv_own m a s u h F R) as (sw & uw & -> & -> & Rm).
  destruct (in_dec field_dec f (oldf m)) as [Hi|Hi]; [eauto|].
  destruct (rep_unknown m (f_num f) c sw uw s u v1) as [D1 R1]; auto.
  - now rewrite (old_foreign _ _ O).
  - intros g Hg E. apply Hi. replace f with g; [assumption|]. eapply (wf_num_inj sn); eauto. now apply (old_fields _ _ O).
  - eexists. split; [exact D1|]. now apply rep_own.
Qed.
Ltac known Hf F R D := eapply known_or_not; [exact F|exact Hf|exact D|exact R|]; intros sw uw -> -> Hi Rm.

(** * The older program accepts the bytes, and keeps what they stand for *)
Lemma older_reads :
  (forall k old b x, dec_value sn k old b x -> forall a, repv k a old \/ sub_of k = None -> exists y, dec_value so k a b y /\ repv k y x) /\
  (forall m bs v v', decodes sn m bs v v' -> forall a, repv (KMessage m) a v -> exists y, decodes so m bs a y /\ repv (KMessage m) y v') /\
  (forall m bs v v' nums, dec_fields sn m bs v v' nums -> md_foreign (md_of sn m) = false -> forall a, repv (KMessage m) a v ->
     exists y, dec_fields so m bs a y nums /\ repv (KMessage m) y v') /\
  (forall m num c v v', dec_record sn m num c v v' -> md_foreign (md_of sn m) = false -> forall a, repv (KMessage m) a v ->
     exists y, dec_record so m num c a y /\ repv (KMessage m) y v') /\
  (forall kk vk bs k x, dec_entry sn kk vk bs k x -> sub_of kk = None ->
     exists y, dec_entry so kk vk bs k y /\ match y, x with Some y, Some x => repv vk y x | None, None => True | _, _ => False end).
Proof.
  apply dec_mut.
  - intros k old bs z N a _. exists (VInt z). split; [now constructor|]. apply rv_same. pose proof (num_wire_num _ _ _ N). destruct k; try discriminate; reflexivity.
  - intros old l q L a _. exists (VStr q). split; [now constructor|]. now apply rv_same.
  - intros old l q L a _. exists (VBytes q). split; [now constructor|]. now apply rv_same.
  - intros m old l q x L D IH a [R|R]; [|discriminate]. destruct (IH a R) as (y & Dy & Ry). exists y. split; [now constructor|assumption].
  - intros m bs v v' nums F D IH Rq a R. destruct (IH F a R) as (y & Dy & Ry). exists y. split; [|assumption].
    eapply dec_own; [now rewrite (old_foreign _ _ O)|exact Dy|]. intros f Hf Q. apply Rq; [now apply (old_fields _ _ O)|assumption].
  - intros m bs v' F E a R. exists v'. assert (a = new_msg (md_of sn m)) as ->.
    { now apply (repv_up m). }
    rewrite <- (old_same _ _ O m F). split; [apply dec_up; [now rewrite (old_foreign _ _ O)|now rewrite (old_up _ _ O)]|]. eapply rv_up; eauto; reflexivity.
  - intros m v F a R. exists a. split; [constructor|assumption].
  - intros m num c bs v v1 v' nums D IHr Df IHf F a R. destruct (IHr F a R) as (y & Dy & Ry). destruct (IHf F y Ry) as (z & Dz & Rz).
    exists z. split; [econstructor; eauto|assumption].
  - (* implicit *)
    intros m f k t b x s u h Hf Ty T D IH F a R.
    pose proof (dr_implicit sn m f k t b x s u h Hf Ty T D) as DR. known Hf F R DR.
    assert (sub_of k = None) as Sk.
    { pose proof (wf_ty sn m f Wn Hf) as WT. unfold wf_type in WT. rewrite Ty in WT. destruct (sub_of k); [rewrite andb_false_r in WT; discriminate|reflexivity]. }
    destruct (IH VNil (or_intror Sk)) as (y & Dy & Ry). apply (repv_same _ _ _ Sk) in Ry. subst y.
    eexists. split; [eapply dr_implicit; eauto|]. apply rep_own; [assumption|]. apply rep_put; auto.
    intros g Hg E. rewrite (alone m f Hi ltac:(unfold is_oneof; now rewrite Ty) g Hg E). eapply rf_implicit; eauto.
  - (* present *)
    intros m f l k t b x s u h Hf Ty L T D IH F a R.
    pose proof (dr_present sn m f l k t b x s u h Hf Ty L T D) as DR. known Hf F R DR.
    assert (repv k (merge_into so k (slot sw (f_slot f))) (merge_into sn k (slot s (f_slot f))) \/ sub_of k = None) as Rk.
    { destruct (sub_of k) as [ms|] eqn:Sk; [left|now right]. pose proof (rep_at _ _ _ _ _ _ Rm Hi) as Rf.
      inversion Rf; subst; try congruence; try (destruct L; congruence); match goal with H : f_ty f = _ |- _ => rewrite Ty in H; injection H as <- <- end.
      - apply fresh_rep.
      - match goal with H : _ \/ _ = KString |- _ => destruct H as [H| ->]; [destruct k; discriminate|discriminate] end.
      - unfold merge_into. destruct (slot sw (f_slot f)), (slot s (f_slot f)); congruence. }
    destruct (IH _ Rk) as (y & Dy & Ry).
    assert (x <> VNil) as Nx.
    { eapply value_nonnil; [exact D|]. destruct (sub_of k) eqn:Sk; [left|now right]. unfold merge_into.
      assert (is_group k = false) as G by (inversion D; subst; try reflexivity; pose proof (num_wire_num _ _ _ H); destruct k; try discriminate; reflexivity).
      destruct (slot s (f_slot f)); try discriminate. destruct k; try discriminate. }
    eexists. split; [eapply dr_present; eauto|]. apply rep_own; [assumption|]. apply rep_put; auto.
    intros g Hg E. rewrite (alone m f Hi ltac:(unfold is_oneof; rewrite Ty; now destruct L as [-> | ->]) g Hg E). eapply boxed_rep; eauto.
    + intros K. apply (repv_same k); [|assumption]. destruct K as [K| ->]; [destruct k; try discriminate; reflexivity|reflexivity].
    + intros ->. apply Nx. now apply (repv_nil k VNil x).
  - (* oneof *)
    intros m f k t b x s u h Hf Ty T D IH F a R.
    pose proof (dr_oneof sn m f k t b x s u h Hf Ty T D) as DR. known Hf F R DR.
    assert (repv k (merge_oneof so k (f_num f) (slot sw (f_slot f))) (merge_oneof sn k (f_num f) (slot s (f_slot f))) \/ sub_of k = None) as Rk.
    { left. pose proof (rep_at _ _ _ _ _ _ Rm Hi) as Rf.
      inversion Rf; subst; try congruence; try (match goal with H : _ \/ _ |- _ => destruct H; congruence end).
      - apply fresh_rep.
      - unfold merge_oneof. destruct (f_num g =? f_num f) eqn:En; [|apply fresh_rep]. apply Z.eqb_eq in En.
        assert (g = f) as -> by (eapply (wf_num_inj so); eauto). rewrite Ty in *. congruence. }
    destruct (IH _ Rk) as (y & Dy & Ry).
    eexists. split; [eapply dr_oneof; eauto|]. apply rep_own; [assumption|]. apply rep_put; auto.
    intros g Hg E. destruct (field_dec g f) as [->|Ne]; [eapply rf_member; eauto|].
    destruct (wf_compat so m f g Wo Hi Hg ltac:(congruence)) as [_ C]. destruct (C (eq_sym E)) as [_ Og].
    unfold is_oneof in Og. destruct (f_ty g) as [[]|] eqn:Tg; try discriminate. eapply rf_member; eauto.
  - (* repeated *)
    intros m f p k t b x s u h Hf Ty T D IH Hh F a R.
    pose proof (dr_repeated sn m f p k t b x s u h Hf Ty T D Hh) as DR. known Hf F R DR.
    destruct (IH _ (or_introl (fresh_rep k))) as (y & Dy & Ry).
    eexists. split; [eapply dr_repeated; eauto|]. apply rep_own; [assumption|]. apply rep_put; auto.
    intros g Hg E. rewrite (alone m f Hi ltac:(unfold is_oneof; now rewrite Ty) g Hg E). eapply rf_list; eauto.
    rewrite !vlist_append. apply Forall2_app; [|repeat constructor; assumption].
    pose proof (rep_at _ _ _ _ _ _ Rm Hi) as Rf. inversion Rf; subst; try congruence; try (match goal with H : _ \/ _ |- _ => destruct H; congruence end).
    
  - (* packed *)
    intros m f p k t l bs zs s u h Hf Ty N T L FW F a R.
    pose proof (dr_packed sn m f p k t l bs zs s u h Hf Ty N T L FW) as DR. known Hf F R DR.
    eexists. split; [eapply dr_packed; eauto|]. apply rep_own; [assumption|]. apply rep_put; auto.
    intros g Hg E. rewrite (alone m f Hi ltac:(unfold is_oneof; now rewrite Ty) g Hg E). eapply rf_list; eauto.
    rewrite !vlist_append. apply Forall2_app.
    + pose proof (rep_at _ _ _ _ _ _ Rm Hi) as Rf. inversion Rf; subst; try congruence; try (match goal with H : _ \/ _ |- _ => destruct H; congruence end).
      
    + clear -N. induction zs; constructor; auto. apply rv_same. destruct k; try discriminate; reflexivity.
  - (* map *)
    intros m f kk vk t l b k x l' s u h Hf Ty T L D IH M F a R.
    pose proof (dr_map sn m f kk vk t l b k x l' s u h Hf Ty T L D M) as DR. known Hf F R DR.
    pose proof (wf_ty sn m f Wn Hf) as WT. unfold wf_type in WT. rewrite Ty in WT. rewrite !andb_true_iff in WT. destruct WT as [[Kk _] Gv].
    destruct IH as (y & Dy & Ry); [destruct kk; try discriminate; reflexivity|].
    assert (repv vk (match y with Some y => y | None => entry_default vk end) (match x with Some x => x | None => entry_default vk end)) as Rd.
    { destruct y, x; try contradiction; auto. destruct vk; try (apply rv_same; reflexivity); try discriminate. eapply rv_nil; reflexivity. }
    pose proof (rep_at _ _ _ _ _ _ Rm Hi) as Rf.
    assert (Forall2 (fun e e' => fst e = fst e' /\ repv vk (snd e) (snd e')) (vmap (slot sw (f_slot f))) (vmap (slot s (f_slot f)))) as Fm.
    { inversion Rf; subst; try congruence. assert (vk0 = vk) as -> by congruence. assumption. }
    destruct (map_put_rep _ _ _ _ _ M _ _ Rd Fm) as (lw' & Mw & Fw).
    eexists. split; [eapply dr_map; eauto|]. apply rep_own; [assumption|]. apply rep_put; auto.
    intros g Hg E. rewrite (alone m f Hi ltac:(unfold is_oneof; now rewrite Ty) g Hg E). eapply rf_map; eauto.
  - (* unknown *)
    intros m num wt c s u h U Rc F a R. destruct (repv_own m a s u h F R) as (sw & uw & -> & -> & Rm).
    destruct (rep_unknown m num c sw uw s u (VMsg s (if md_keep (md_of sn m) then u ++ c else u) [])) as [D1 R1]; auto.
    + now rewrite (old_foreign _ _ O).
    + eapply dr_unknown; eauto.
    + intros g Hg. apply U. now apply (old_fields _ _ O).
    + eexists. split; [exact D1|]. now apply rep_own.
  - intros kk vk _. exists None. split; [constructor|exact I].
  - intros kk vk t b bs k x T D IH De IHe Sk. destruct (IHe Sk) as (y & Dy & Ry). destruct (IH VNil (or_intror Sk)) as (k' & Dk & Rk).
    apply (repv_same _ _ _ Sk) in Rk. subst k'. exists y. split; [now constructor|assumption].
  - intros kk vk t b bs k x T D IH De IHe Sk. destruct (IHe Sk) as (y & Dy & Ry). destruct y; [destruct Ry|].
    destruct (IH _ (or_introl (fresh_rep vk))) as (z & Dz & Rz). exists (Some z). split; [now constructor|assumption].
  - intros kk vk num wt c bs k x N Rc De IHe Sk. destruct (IHe Sk) as (y & Dy & Ry). exists y. split; [econstructor; eauto|assumption].
Qed.
End Ev.
