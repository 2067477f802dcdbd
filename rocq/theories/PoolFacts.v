(** Pooled messages: emptied messages correspond to new ones, and ResetVT empties. *)
From Coq Require Import ZArith List Bool Lia.
From Verif Require Import Base BaseFacts Schema Value Helpers Unmarshal Clone Pool WireSpec Typing MsgSpec DecodeSpec ContentSpec PoolSpec
  MarshalFacts TargetFacts SameFacts EqualRel RunRel.
Import ListNotations.
Open Scope Z_scope.

(** Ordinary strings and byte slices. *)
Definition text (k : kind) (a : val) : Prop :=
  (k = KString /\ exists s, a = VStr s) \/ (k = KBytes /\ (a = VNil \/ exists s, a = VBytes s)).
Lemma text_plain k a : text k a -> plain k a.
Proof. intros [[-> H]|[-> H]]; split; auto; discriminate. Qed.
Lemma plain_text k a : k = KString \/ k = KBytes -> plain k a -> text k a.
Proof. intros [->| ->] [A B]; [left|right]; auto. Qed.
Lemma text_deref k a : text k a -> deref a = a.
Proof. intros [[_ [s ->]]|[_ [->|[s ->]]]]; reflexivity. Qed.

(** * Removing spare capacity *)
Fixpoint trim_idem (v : val) : trim (trim v) = trim v.
Proof.
  destruct v as [|z|s|s|x|l|l|n x|s u h|o s|o s]; cbn [trim]; try reflexivity.
  - now rewrite trim_idem.
  - f_equal. induction l as [|x l IH]; cbn [map]; [reflexivity|]. now rewrite trim_idem, IH.
  - f_equal. induction l as [|[a x] l IH]; cbn [map fst snd]; [reflexivity|]. now rewrite trim_idem, IH.
  - now rewrite trim_idem.
  - f_equal. induction s as [|x l IH]; cbn [map]; [reflexivity|]. now rewrite trim_idem, IH.
Qed.

Fixpoint wt_trim_elem sc k v (H : wt_elem sc k v) {struct H} : wt_elem sc k (trim v)
with wt_trim_field sc md f v (H : wt_field sc md f v) {struct H} : wt_field sc md f (trim v)
with wt_trim sc m v (H : wt_msg sc m v) {struct H} : wt_msg sc m (trim v).
Proof.
  - destruct H as [k z R|s B|s B| |k m S|k m v S T]; cbn [trim].
    + now apply wt_num. + now apply wt_str. + now apply wt_bytes. + apply wt_nilbytes. + eapply wt_nilsub; eauto.
    + eapply wt_sub; eauto.
  - destruct H as [md f Z|md f k v T E|md f l k v T L K E|md f l k v T L K1 K2 E|md f p k l T E|md f kk vk l T E1 E2 N|md f k g k' x T Hg Sg Tg E]; cbn [trim].
    + now apply wt_unset.
    + eapply wt_implicit; eauto.
    + eapply wt_ptr; eauto.
    + eapply wt_direct; eauto.
    + eapply wt_list; eauto. intros x Hx. apply in_map_iff in Hx as (y & <- & Hy). exact (wt_trim_elem sc k y (E y Hy)).
    + eapply wt_map; eauto.
      * intros e He. apply in_map_iff in He as (e0 & <- & He). exact (E1 e0 He).
      * intros e He. apply in_map_iff in He as (e0 & <- & He). exact (wt_trim_elem sc vk (snd e0) (E2 e0 He)).
      * rewrite map_map. cbn [fst]. exact N.
    + eapply wt_oneof; eauto.
  - destruct H as [m s u h L F B]. cbn [trim]. constructor.
    + now rewrite map_length.
    + intros f Hf. unfold slot. change VNil with (trim VNil). rewrite map_nth. exact (wt_trim_field sc _ f _ (F f Hf)).
    + exact B.
Qed.

Lemma trim_zero v t : trim v = zero_of t -> v = zero_of t.
Proof.
  destruct t as [[| | |p|] k|kk vk]; cbn [zero_of]; try (destruct v; cbn; congruence).
  destruct (classify k); destruct v; cbn; congruence.
Qed.
Lemma zero_slot_cases md i : (exists t, zero_slot md i = zero_of t) \/ zero_slot md i = VNil.
Proof. unfold zero_slot. destruct (find _ _) as [f|]; [left; eexists; reflexivity|now right]. Qed.
Lemma trim_zeros md s : map trim s = map trim (zero_slots md) -> s = zero_slots md.
Proof.
  unfold zero_slots. generalize (seq 0 (md_nslots md)). intros l. revert s. induction l as [|i l IH]; intros [|x s] H; cbn [map] in *; try discriminate; [reflexivity|].
  injection H as H1 H2. f_equal; [|now apply IH].
  assert (trim (zero_slot md i) = zero_slot md i) as E.
  { destruct (zero_slot_cases md i) as [[t E]|E]; rewrite E; [|reflexivity]. destruct t as [[| | |p|] k|kk vk]; try reflexivity. cbn. now destruct (classify k). }
  rewrite E in H1. destruct (zero_slot_cases md i) as [[t Et]|Et]; rewrite Et in *; [now apply trim_zero|]. destruct x; cbn in H1; congruence.
Qed.

Definition val_eq_nil (v : val) : {v = VNil} + {v <> VNil}.
Proof. destruct v; auto; right; discriminate. Defined.

Section Pool.
Variable sc : schema.
Hypothesis W : wf_schema sc = true.

(** Types whose byte slices with presence are kept. *)
Definition keeps (m : nat) : Prop :=
  md_pool (md_of sc m) = true /\ exists f l, In f (md_fields (md_of sc m)) /\ f_ty f = TField l KBytes /\ (l = LOptional \/ l = LRequired).
Notation rv := (rv sc text keeps). Notation rs := (rs sc text keeps). Notation rf := (rf sc text keeps). Notation rm := (rm sc text keeps).

Lemma text_str s : text KString (VStr s). Proof. left. eauto. Qed.
Lemma text_nil : text KBytes VNil. Proof. right. auto. Qed.
Lemma new_rm m : rm m (new_msg (md_of sc m)) (new_msg (md_of sc m)).
Proof. apply rm_new; auto using text_str, text_nil. Qed.
Lemma new_rs m : rs m (new_msg (md_of sc m)) (new_msg (md_of sc m)).
Proof. apply rs_new; auto using text_str, text_nil. Qed.

(** * Emptied messages *)
Lemma nothing_rf m f x : In f (md_fields (md_of sc m)) -> holds_nothing (md_pool (md_of sc m)) f x -> rf m f x (zero_of (f_ty f)).
Proof.
  intros Hf H. pose proof (wf_ty sc m f W Hf) as Wt. unfold holds_nothing in H. destruct (f_ty f) as [[| | |p|] k|kk vk] eqn:T; cbn [zero_of].
  - eapply rf_implicit; eauto. destruct k; cbn [is_num is_bytes classify] in *; try (subst; apply rv_num; reflexivity).
    all: try (exfalso; cbn in Wt; rewrite andb_false_r in Wt; discriminate).
    + subst. apply rv_text; auto using text_str. split; [eauto|discriminate].
    + destruct H as [->| ->]; apply rv_text; auto; try (split; [discriminate|auto]); right; eauto.
  - destruct H as [->|(P & B & ->)]; [eapply rf_unset; eauto|]. destruct k; try discriminate. eapply rf_kept; eauto. split; eauto 8.
  - destruct H as [->|(P & B & ->)]; [eapply rf_unset; eauto|]. destruct k; try discriminate. eapply rf_kept; eauto. split; eauto 8.
  - destruct H as [->| ->]; eapply rf_list; eauto; constructor.
  - subst. eapply rf_none; eauto.
  - destruct H as [->| ->]; eapply rf_map; eauto; constructor.
Qed.
Lemma rf_nothing m f x : In f (md_fields (md_of sc m)) -> rf m f x (zero_of (f_ty f)) -> holds_nothing (md_pool (md_of sc m)) f x.
Proof.
  intros Hf H. pose proof (wf_ty sc m f W Hf) as Wt. unfold holds_nothing.
  inversion H as [? ? k ? ? T X|? ? l k T L|? ? l T L K|? ? l k a b T L K X|? ? l k a b T L K1 K2 Na Nb X|? ? p k a b T Sa Sb X|? ? kk vk a b T Sa Sb X|? ? k T|? ? k n a b T Nn|? ? k a b T X]; subst.
  - rewrite T in *. remember (zero_of (TField LImplicit k)) as y eqn:Ey. destruct X as [k z N|k a b K Oa Pb E|k m' a b S R].
    + rewrite N. f_equal. destruct k; cbn in Ey; try discriminate; congruence.
    + subst b. destruct Oa as [[-> [s ->]]|[-> O]]; cbn [is_num is_bytes classify vbytes] in *; [now subst|]. destruct O as [->|[s ->]]; auto. cbn in E. subst. auto.
    + exfalso. cbn in Wt. rewrite S in Wt. rewrite andb_false_r in Wt. discriminate.
  - rewrite T. destruct L; subst; auto.
  - rewrite T. destruct K as [K _]. destruct L; subst; right; auto.
  - rewrite T in *. destruct L; subst; discriminate.
  - rewrite T in *. destruct L; subst; cbn [zero_of] in *; congruence.
  - rewrite T in *. cbn [zero_of vlist] in X. destruct Sa as [->|[l ->]]; auto. cbn in X. inversion X. auto.
  - rewrite T in *. cbn [zero_of vmap] in X. destruct Sa as [->|[l ->]]; auto. cbn in X. inversion X. auto.
  - now rewrite T.
  - rewrite T in *. discriminate.
  - rewrite T in *. discriminate.
Qed.

Lemma self_spare m s u h f p k m' x : md_foreign (md_of sc m) = false -> In f (md_fields (md_of sc m)) -> f_ty f = TField (LRepeated p) k -> sub_of k = Some m' ->
  In x (nth (f_slot f) h []) -> x <> VNil -> spare sc m (VMsg s u h) m' x.
Proof. intros. eapply spare_at; eauto. apply in_self. Qed.
Lemma as_new_rs m x : md_foreign (md_of sc m) = true -> as_new sc m x -> rs m x (new_msg (md_of sc m)).
Proof.
  intros F [h ->]. assert (wt_msg sc m (new_msg (md_of sc m))) as T by now apply target_new.
  apply rs_up; auto. unfold new_msg in T. inversion T; subst. now constructor.
Qed.

Lemma emptied_rm m x : md_foreign (md_of sc m) = false -> tidy sc m x -> emptied sc m x -> rm m x (new_msg (md_of sc m)).
Proof.
  intros F H. revert F. induction H as [m x Ty A B C IH] using tidy_ind. intros F (s & h & -> & L & N).
  constructor; auto.
  - unfold zero_slots. now rewrite map_length, seq_length.
  - intros f Hf. rewrite (zero_slots_of sc W m f Hf). apply nothing_rf; auto.
  - intros f p k m' y Hf T S Hy. assert ({y = VNil} + {y <> VNil}) as [->|Ny] by (destruct y; auto; right; discriminate); [auto|]. right.
    assert (spare sc m (VMsg s [] h) m' y) as Sp by (eapply self_spare; eauto).
    destruct (md_foreign (md_of sc m')) eqn:F'; [apply as_new_rs; auto|]. apply rs_msg; auto.
  - intros i. now destruct i.
  - intros i Ni. eapply Ty; eauto. apply in_self.
Qed.

(** Well-typed messages without junk in their spare capacity. *)
Lemma within_trans m v m1 x m2 y : within sc m v m1 x -> within sc m1 x m2 y -> within sc m v m2 y.
Proof. induction 1 as [|m s u h f k m1 x m' z F Hf Hh S H IH]; auto. intros Hy. eapply in_sub; eauto. Qed.
Lemma tidy_sub m s u h f k m1 x : tidy sc m (VMsg s u h) -> md_foreign (md_of sc m) = false -> In f (md_fields (md_of sc m)) ->
  holds f (slot s (f_slot f)) k x -> sub_of k = Some m1 -> tidy sc m1 x.
Proof.
  intros [Ty A B C] F Hf Hh S. assert (forall m' y, spare sc m1 x m' y -> spare sc m (VMsg s u h) m' y) as E.
  { intros m' y [m2 s2 u2 h2 f2 p2 k2 Hw F2 Hf2 T2 S2 Hin N]. eapply spare_at; eauto. eapply in_sub; eauto. }
  constructor; eauto. intros m2 s2 u2 h2 i Hw. apply (Ty m2 s2 u2 h2 i). eapply in_sub; eauto.
Qed.

Lemma tidy_rv n : (forall m v, (vdepth v < n)%nat -> wt_msg sc m v -> md_foreign (md_of sc m) = false -> tidy sc m v -> rm m v (trim v)) ->
  forall k x, (vdepth x < n)%nat -> wt_elem sc k x -> (forall m', sub_of k = Some m' -> x <> VNil -> tidy sc m' x) -> rv k x (trim x).
Proof.
  intros IH k x D T Ti. destruct T as [k z R|s B|s B| |k m S|k m v S T]; cbn [trim].
  - apply rv_num. destruct k; try reflexivity; discriminate.
  - apply rv_text; auto using text_str. split; [eauto|discriminate].
  - apply rv_text; auto; [right; eauto|split; [discriminate|eauto]].
  - apply rv_text; auto using text_nil. split; [discriminate|auto].
  - eapply rv_sub; eauto. apply rs_nil.
  - eapply rv_sub; eauto. assert (v <> VNil) as N by (inversion T; discriminate).
    destruct (md_foreign (md_of sc m)) eqn:F.
    + apply rs_up; auto; [now apply wt_trim|now rewrite trim_idem].
    + apply rs_msg; auto.
Qed.
Lemma tidy_rm_n n : forall m v, (vdepth v < n)%nat -> wt_msg sc m v -> md_foreign (md_of sc m) = false -> tidy sc m v -> rm m v (trim v).
Proof.
  induction n as [|n IH]; intros m v D T F Ti; [lia|]. destruct T as [m s u h Ls HF Bu]. cbn [trim].
  assert (forall i, (vdepth (slot s i) < n)%nat) as DS by (intros i; pose proof (depth_slot s i u h); lia).
  pose proof (tidy_rv n IH) as E.
  constructor; auto; [now rewrite map_length| | |intros i; now destruct i|intros i Ni; destruct Ti as [Ty _ _ _]; eapply Ty; eauto; apply in_self].
  - intros f Hf. replace (slot (map trim s) (f_slot f)) with (trim (slot s (f_slot f))) by (unfold slot; change VNil with (trim VNil) at 2; now rewrite map_nth).
    specialize (DS (f_slot f)). specialize (HF f Hf).
    assert (forall k x m', holds f (slot s (f_slot f)) k x -> sub_of k = Some m' -> tidy sc m' x) as TS by (intros; eapply tidy_sub; eauto).
    pose proof (wf_ty sc m f W Hf) as Wt.
    remember (slot s (f_slot f)) as x eqn:Ex. clear Ex. inversion HF as [? ? Z|? ? k v T0 T|? ? l k v T0 L K T|? ? l k v T0 L K1 K2 T|? ? p k l T0 T|? ? kk vk l T0 T1 T2 N|? ? k g k' y T0 Hg Sg Tg T]; subst; cbn [trim].
    + destruct (f_ty f) as [[| | |p|] k|kk vk] eqn:T0; cbn [zero_of] in Z.
      * eapply rf_implicit; eauto. destruct k; cbn [classify] in Z; try discriminate; try (exfalso; cbn in Wt; rewrite andb_false_r in Wt; discriminate).
        apply rv_text; auto using text_nil. split; [discriminate|auto].
      * eapply rf_unset; eauto. * eapply rf_unset; eauto. * eapply rf_list; eauto; constructor. * eapply rf_none; eauto. * eapply rf_map; eauto; constructor.
    + eapply rf_implicit; eauto. apply E; auto. intros m' S. exfalso. rewrite T0 in Wt. cbn in Wt. rewrite S, andb_false_r in Wt. discriminate.
    + eapply rf_ptr; eauto. cbn [vdepth] in DS. apply E; auto; [lia|]. intros m' S. destruct K as [K| ->]; [destruct k|]; discriminate.
    + assert ({x = VNil} + {x <> VNil}) as [->|Nv] by (destruct x; auto; right; discriminate); [eapply rf_unset; eauto|].
      eapply rf_direct; eauto; [destruct x; cbn; congruence|]. apply E; auto. intros m' S _. apply (TS k _ m'); auto. eapply holds_set; eauto.
    + eapply rf_list; eauto. cbn [vlist]. assert (forall x, In x l -> rv k x (trim x)) as G.
      { intros x Hx. apply E; auto; [pose proof (depth_list x l Hx); lia|]. intros m' S _. apply (TS k x m'); auto. eapply holds_list; eauto. }
      clear - G. induction l as [|x l IH]; cbn; [constructor|]. constructor; [apply (G x); now left|apply IH; intros; apply G; now right].
    + eapply rf_map; eauto. cbn [vmap]. assert (forall e, In e l -> rv kk (fst e) (fst e) /\ rv vk (snd e) (trim (snd e))) as G.
      { intros [a x] Hx. cbn [fst snd]. split.
        - pose proof (T1 _ Hx) as Ta. cbn in Ta. rewrite T0 in Wt. cbn in Wt.
          assert (key_kind kk = true) as KK by (apply andb_true_iff in Wt as [Wt _]; now apply andb_true_iff in Wt as [? _]).
          destruct Ta as [k z R|s0 B|s0 B| |k m1 S|k m1 v S T]; try discriminate KK; try (destruct k; discriminate).
          + apply rv_num. destruct k; try reflexivity; discriminate.
          + apply rv_text; auto using text_str. split; [eauto|discriminate].
        - pose proof (T2 _ Hx) as Ta. cbn in Ta. apply E; auto; [pose proof (depth_map (a, x) l Hx) as Dm; cbn [snd] in Dm; lia|]. intros m' S _. apply (TS vk x m'); auto. eapply holds_map; eauto. }
      clear - G. induction l as [|x l IH]; cbn; [constructor|]. constructor; [apply (G x); now left|apply IH; intros; apply G; now right].
    + cbn [vdepth] in DS. destruct (Z.eq_dec (f_num g) (f_num f)) as [En|En]; [|eapply rf_other; eauto].
      rewrite En. assert (k' = k) as ->.
      { assert (g = f) as -> by (eapply wf_num_inj; eauto). congruence. }
      eapply rf_member; eauto. apply E; auto; [lia|]. intros m' S _. apply (TS k y m'); auto. rewrite En. eapply holds_member; eauto.
  - intros f p k m' y Hf T S Hy. destruct (val_eq_nil y) as [->|Ny]; [auto|]. right.
    destruct Ti as [Ty A B C]. assert (spare sc m (VMsg s u h) m' y) as Sp by (eapply self_spare; eauto).
    destruct (md_foreign (md_of sc m')) eqn:F'; [apply as_new_rs; auto|]. apply rs_msg; auto. apply emptied_rm; auto.
Qed.
Lemma tidy_rm m v : wt_msg sc m v -> md_foreign (md_of sc m) = false -> tidy sc m v -> rm m v (trim v).
Proof. apply (tidy_rm_n (S (vdepth v))). lia. Qed.

(** A message that equals itself without spare capacity. *)
Lemma holds_trim f x k y : holds f x k y -> trim x = x -> trim y = y.
Proof.
  intros H E. destruct H as [f p k l y T Hy|f kk k l z y T Hy|f l k y T L N|f k y T]; cbn in E; auto; [| |congruence].
  - injection E as E. clear T. induction l as [|a l IH]; cbn in *; [destruct Hy|]. injection E as E1 E2. destruct Hy as [->|Hy]; auto.
  - injection E as E. clear T. induction l as [|[a b] l IH]; cbn in *; [destruct Hy|]. injection E as E1 E2. destruct Hy as [Hy|Hy]; [congruence|auto].
Qed.
Lemma within_trim m v m1 x : within sc m v m1 x -> trim v = v -> trim x = x.
Proof.
  induction 1 as [|m s u h f k m1 x m' z F Hf Hh S H IH]; auto. intros E. apply IH. eapply holds_trim; eauto.
  cbn in E. injection E as E _. unfold slot. pose proof (map_nth trim s VNil (f_slot f)) as Q. cbn [trim] in Q. rewrite E in Q. now symmetry.
Qed.
Lemma compact_tidy m v : trim v = v -> tidy sc m v.
Proof.
  intros E. assert (forall m' x, spare sc m v m' x -> False) as N.
  { intros m' x [m1 s u h f p k Hw F Hf T S Hin Nx]. apply within_trim in Hw; auto. cbn in Hw. injection Hw as _ Hw. subst h. destruct (f_slot f); destruct Hin. }
  constructor; [|intros m' x Hs; destruct (N m' x Hs)..].
  intros m1 s u h i Hw _ Ni. apply within_trim in Hw; auto. cbn in Hw. injection Hw as _ Hw. subst h. destruct i; destruct (Ni eq_refl).
Qed.

(** * The left side *)
Definition clear (m : nat) (x : val) : Prop :=
  (md_foreign (md_of sc m) = true -> as_new sc m x) /\ (md_foreign (md_of sc m) = false -> emptied sc m x /\ tidy sc m x).
Lemma rm_emptied m x : rm m x (new_msg (md_of sc m)) -> emptied sc m x.
Proof.
  intros H. inversion H as [? s u h s' h' L1 L2 F Sp N]; subst. exists s, h. split; [reflexivity|]. split; [assumption|].
  intros f Hf. apply rf_nothing; auto. rewrite <- (zero_slots_of sc W m f Hf). auto.
Qed.
Lemma spare_sub m s u h m' x : spare sc m (VMsg s u h) m' x ->
  (exists f p k, md_foreign (md_of sc m) = false /\ In f (md_fields (md_of sc m)) /\ f_ty f = TField (LRepeated p) k /\ sub_of k = Some m' /\ In x (nth (f_slot f) h []) /\ x <> VNil) \/
  exists f k m1 y, In f (md_fields (md_of sc m)) /\ holds f (slot s (f_slot f)) k y /\ sub_of k = Some m1 /\ spare sc m1 y m' x.
Proof.
  intros [m1 s1 u1 h1 f p k Hw F Hf T S Hin Nx]. remember (VMsg s u h) as v eqn:Ev. remember (VMsg s1 u1 h1) as w eqn:Ew. destruct Hw as [m v|m s2 u2 h2 f2 k2 m2 y m3 z F2 Hf2 Hh S2 Hw].
  - left. rewrite Ev in Ew. injection Ew as <- <- <-. exists f, p, k. repeat split; auto.
  - right. injection Ev as -> -> ->. exists f2, k2, m2, y. repeat split; auto. subst. eapply spare_at; eauto.
Qed.
Definition typed (m : nat) (x : val) : Prop :=
  forall m1 s u h i, within sc m x m1 (VMsg s u h) -> md_foreign (md_of sc m1) = false -> nth i h [] <> [] -> message_list sc m1 i.
Lemma tidy_of m x : typed m x -> (forall m' y, spare sc m x m' y -> clear m' y) -> tidy sc m x.
Proof. intros Ty H. constructor; [exact Ty|..]; intros m' y Hs F; destruct (H m' y Hs) as [A B]; [exact (A F)|exact (proj1 (B F))|exact (proj2 (B F))]. Qed.
Lemma spare_nil m m' x : spare sc m VNil m' x -> False.
Proof. intros [m1 s u h f p k Hw]. inversion Hw. Qed.
Lemma spare_foreign m v m' x : md_foreign (md_of sc m) = true -> spare sc m v m' x -> False.
Proof. intros F [m1 s u h f p k Hw F1]. inversion Hw; subst; congruence. Qed.

Lemma rs_as_new m x : rs m x (new_msg (md_of sc m)) -> md_foreign (md_of sc m) = true -> as_new sc m x.
Proof.
  intros R F. inversion R as [|? ? ? Fm Ta Tb E|? ? ? Fm R']; subst; [|congruence]. inversion Ta as [m2 s0 u0 h0 L0 HF0 B0]; subst.
  unfold new_msg in E. cbn [trim] in E. injection E as E ->. apply trim_zeros in E. subst. eexists; reflexivity.
Qed.
Lemma rs_emptied m x : rs m x (new_msg (md_of sc m)) -> md_foreign (md_of sc m) = false -> emptied sc m x.
Proof. intros R F. inversion R as [|? ? ? Fm Ta Tb E|? ? ? Fm R']; subst; [congruence|]. now apply rm_emptied. Qed.

Fixpoint rv_typed k a b (H : rv k a b) {struct H} : forall m, sub_of k = Some m -> typed m a
with rs_typed m a b (H : rs m a b) {struct H} : typed m a
with rf_typed m f a b (H : rf m f a b) {struct H} : forall k y m1, holds f a k y -> sub_of k = Some m1 -> typed m1 y
with rm_typed m a b (H : rm m a b) {struct H} : typed m a.
Proof.
  - destruct H as [k z N|k a b K Oa Pb E|k m0 a b S R]; intros m Sk.
    + destruct k; discriminate.
    + destruct K; subst; discriminate.
    + rewrite S in Sk. injection Sk as <-. exact (rs_typed m0 a b R).
  - destruct H as [m|m a b F Ta Tb E|m a b F R].
    + intros m1 s u h i Hw. inversion Hw.
    + intros m1 s u h i Hw F1. inversion Hw; subst; congruence.
    + exact (rm_typed m a b R).
  - destruct H as [m f k a b T X|m f l k T L|m f l T L K|m f l k a b T L K X|m f l k a b T L K1 K2 Na Nb X|m f p k a b T Sa Sb X|m f kk vk a b T Sa Sb X|m f k T|m f k n u v T Nn|m f k u v T X]; intros k0 y m1 Hh S.
    + inversion Hh; subst; rewrite T in *; try discriminate. destruct H0; subst; discriminate.
    + inversion Hh; subst; congruence.
    + inversion Hh; subst; rewrite T in *; try discriminate. assert (k0 = KBytes) as -> by congruence. discriminate.
    + inversion Hh; subst; rewrite T in *. assert (k = k0) as -> by congruence. destruct K as [K| ->]; [destruct k0|]; discriminate.
    + assert (k0 = k /\ y = a) as [-> ->]; [|exact (rv_typed k a b X m1 S)].
      inversion Hh; subst; rewrite T in *; split; try congruence; destruct L; subst; discriminate.
    + assert (k0 = k /\ In y (vlist a)) as [-> Hy] by (inversion Hh; subst; rewrite T in *; try discriminate; try (destruct H0; subst; discriminate); split; [congruence|assumption]).
      clear - X Hy S rv_typed. induction X as [|u v l l' V X IH]; [destruct Hy|]. destruct Hy as [->|Hy]; [exact (rv_typed k y v V m1 S)|exact (IH Hy)].
    + assert (k0 = vk /\ exists z, In (z, y) (vmap a)) as [-> [z Hy]] by (inversion Hh; subst; rewrite T in *; try discriminate; try (destruct H0; subst; discriminate); split; [congruence|eauto]).
      clear - X Hy S rv_typed. induction X as [|u v l l' V X IH]; [destruct Hy|]. destruct Hy as [->|Hy]; [|exact (IH Hy)]. destruct V as [_ V]. exact (rv_typed vk _ _ V m1 S).
    + inversion Hh; subst; congruence.
    + inversion Hh; subst; rewrite T in *; try congruence. destruct H0; subst; discriminate.
    + assert (k0 = k /\ y = u) as [-> ->]; [|exact (rv_typed k u v X m1 S)].
      inversion Hh; subst; rewrite T in *; split; try congruence; destruct H0; subst; discriminate.
  - destruct H as [m s u h s' h' L1 L2 F Sp N Ty]. intros m1 s1 u1 h1 i Hw F1 Ni. remember (VMsg s u h) as v eqn:Ev. remember (VMsg s1 u1 h1) as w eqn:Ew.
    destruct Hw as [m v|m s2 u2 h2 f2 k2 m2 y m3 z F2 Hf2 Hh S2 Hw].
    + rewrite Ev in Ew. injection Ew as <- <- <-. now apply Ty.
    + injection Ev as -> -> ->. rewrite Ew in Hw. exact (rf_typed m f2 _ _ (F f2 Hf2) k2 y m2 Hh S2 m3 s1 u1 h1 i Hw F1 Ni).
Qed.
Fixpoint rv_clear k a b (H : rv k a b) {struct H} : forall m, sub_of k = Some m -> forall m' x, spare sc m a m' x -> clear m' x
with rs_clear m a b (H : rs m a b) {struct H} : forall m' x, spare sc m a m' x -> clear m' x
with rf_clear m f a b (H : rf m f a b) {struct H} : forall k y m1, holds f a k y -> sub_of k = Some m1 -> forall m' x, spare sc m1 y m' x -> clear m' x
with rm_clear m a b (H : rm m a b) {struct H} : forall m' x, spare sc m a m' x -> clear m' x.
Proof.
  - destruct H as [k z N|k a b K Oa Pb E|k m0 a b S R]; intros m Sk m' x Hs.
    + destruct k; discriminate.
    + destruct K; subst; discriminate.
    + rewrite S in Sk. injection Sk as <-. exact (rs_clear m0 a b R m' x Hs).
  - destruct H as [m|m a b F Ta Tb E|m a b F R]; intros m' x Hs.
    + destruct (spare_nil _ _ _ Hs).
    + destruct (spare_foreign _ _ _ _ F Hs).
    + exact (rm_clear m a b R m' x Hs).
  - destruct H as [m f k a b T X|m f l k T L|m f l T L K|m f l k a b T L K X|m f l k a b T L K1 K2 Na Nb X|m f p k a b T Sa Sb X|m f kk vk a b T Sa Sb X|m f k T|m f k n u v T Nn|m f k u v T X]; intros k0 y m1 Hh S m' x Hs.
    + inversion Hh; subst; rewrite T in *; try discriminate. destruct H0; subst; discriminate.
    + inversion Hh; subst; congruence.
    + inversion Hh; subst; rewrite T in *; try discriminate. assert (k0 = KBytes) as -> by congruence. discriminate.
    + inversion Hh; subst; rewrite T in *. assert (k = k0) as -> by congruence. destruct K as [K| ->]; [destruct k0|]; discriminate.
    + assert (k0 = k /\ y = a) as [-> ->]; [|exact (rv_clear k a b X m1 S m' x Hs)].
      inversion Hh; subst; rewrite T in *; split; try congruence; destruct L; subst; discriminate.
    + assert (k0 = k /\ In y (vlist a)) as [-> Hy] by (inversion Hh; subst; rewrite T in *; try discriminate; try (destruct H0; subst; discriminate); split; [congruence|assumption]).
      clear - X Hy S Hs rv_clear. induction X as [|u v l l' V X IH]; [destruct Hy|]. destruct Hy as [->|Hy]; [exact (rv_clear k y v V m1 S m' x Hs)|exact (IH Hy)].
    + assert (k0 = vk /\ exists z, In (z, y) (vmap a)) as [-> [z Hy]] by (inversion Hh; subst; rewrite T in *; try discriminate; try (destruct H0; subst; discriminate); split; [congruence|eauto]).
      clear - X Hy S Hs rv_clear. induction X as [|u v l l' V X IH]; [destruct Hy|]. destruct Hy as [->|Hy]; [|exact (IH Hy)]. destruct V as [_ V]. exact (rv_clear vk _ _ V m1 S m' x Hs).
    + inversion Hh; subst; congruence.
    + inversion Hh; subst; rewrite T in *; try congruence. destruct H0; subst; discriminate.
    + assert (k0 = k /\ y = u) as [-> ->]; [|exact (rv_clear k u v X m1 S m' x Hs)].
      inversion Hh; subst; rewrite T in *; split; try congruence; destruct H0; subst; discriminate.
  - destruct H as [m s u h s' h' L1 L2 F Sp N]. intros m' x Hs. destruct (spare_sub m s u h m' x Hs) as [(f & p & k & Fo & Hf & T & S & Hin & Nx)|(f & k & m1 & y & Hf & Hh & S & Hs')].
    + destruct (Sp f p k m' x Hf T S Hin) as [->|R]; [congruence|]. split; intros F'.
      * exact (rs_as_new m' x R F').
      * split; [exact (rs_emptied m' x R F')|]. apply tidy_of; [exact (rs_typed m' x _ R)|exact (rs_clear m' x _ R)].
    + exact (rf_clear m f _ _ (F f Hf) k y m1 Hh S m' x Hs').
Qed.
Lemma rm_tidy m a b : rm m a b -> tidy sc m a.
Proof. intros H. apply tidy_of; [exact (rm_typed m a b H)|exact (rm_clear m a b H)]. Qed.
Lemma rs_new_clear m x : x <> VNil -> rs m x (new_msg (md_of sc m)) -> clear m x.
Proof. intros N R. split; intros F; [now apply rs_as_new|]. split; [now apply rs_emptied|]. apply tidy_of; [exact (rs_typed m x _ R)|exact (rs_clear m x _ R)]. Qed.

(** * ResetVT *)
Hypothesis PL : pools_local sc.
Definition good (e : nat * val) : Prop := md_pool (md_of sc (fst e)) = true /\ emptied sc (fst e) (snd e) /\ tidy sc (fst e) (snd e).
Definition spare_ok (m : nat) (y : val) : Prop := y = VNil \/ clear m y.

Lemma new_clear m : clear m (new_msg (md_of sc m)).
Proof. apply rs_new_clear; [discriminate|apply new_rs]. Qed.
Lemma nothing_holds kept f x k y m : holds_nothing kept f x -> holds f x k y -> sub_of k = Some m -> False.
Proof.
  intros N H S. unfold holds_nothing in N. destruct H as [f p k l y T Hy|f kk k l z y T Hy|f l k y T L Ny|f k y T]; rewrite T in N.
  - destruct N as [N|N]; [discriminate|]. injection N as ->. destruct Hy.
  - destruct N as [N|N]; [discriminate|]. injection N as ->. destruct Hy.
  - destruct L; subst; destruct N as [N|(_ & B & _)]; try congruence; destruct k; discriminate.
  - discriminate.
Qed.

Section Reset.
Variable rec : nat -> val -> res unit (val * puts).
Hypothesis RC : forall m v b v' q, md_pool (md_of sc m) = true -> rm m v b -> rec m v = Ok (v', q) -> emptied sc m v' /\ tidy sc m v' /\ Forall good q.

Lemma return_sub_ok m v b q : md_pool (md_of sc m) = true -> rs m v b -> return_sub rec m v = Ok q -> Forall good q.
Proof.
  intros P R E. pose proof (PL m P) as F. inversion R as [|? ? ? F'|? ? ? F' R']; subst; [cbn in E; injection E as <-; constructor|congruence|].
  destruct (rm_vmsg sc text keeps m v b R') as (s & u & h & s' & h' & -> & ->). cbn [return_sub] in E.
  destruct (rec m (VMsg s u h)) as [[v' q']| | |] eqn:Er; cbn in E; try discriminate. injection E as <-.
  destruct (RC m _ _ _ _ P R' Er) as (A & B & C). apply Forall_app. split; [exact C|]. constructor; [|constructor]. split; auto.
Qed.

Lemma reset_elems_ok m l : (forall x, In x l -> exists b, rs m x b) -> forall r q, reset_elems sc rec m l = Ok (r, q) -> Forall (spare_ok m) r /\ Forall good q.
Proof.
  induction l as [|x l IH]; intros H r q E; cbn [reset_elems] in E; [injection E as <- <-; auto|].
  destruct (H x (or_introl eq_refl)) as [b R].
  match type of E with rbind ?a _ = _ => assert (forall r1 q1, a = Ok (r1, q1) -> spare_ok m r1 /\ Forall good q1) as X end.
  { intros r1 q1 Ex. destruct (md_pool (md_of sc m)) eqn:P.
    - pose proof (PL m P) as F. inversion R as [|? ? ? F'|? ? ? F' R']; subst; [|congruence|].
      + injection Ex as <- <-. split; [now left|constructor].
      + destruct (rm_vmsg sc text keeps m x b R') as (s & u & h & s' & h' & -> & ->). destruct (RC m _ _ _ _ P R' Ex) as (A & B & C).
        split; [|exact C]. right. split; intros; [congruence|auto].
    - destruct x; try discriminate. injection Ex as <- <-. split; [right; apply new_clear|constructor]. }
  match type of E with rbind ?a _ = _ => destruct a as [[r1 q1]| | |] end; cbn [rbind] in E; try discriminate.
  destruct (X _ _ eq_refl) as [X1 X2]. destruct (reset_elems sc rec m l) as [[r2 q2]| | |] eqn:El; cbn in E; try discriminate. injection E as <- <-.
  destruct (IH (fun y Hy => H y (or_intror Hy)) r2 q2 eq_refl) as [Y1 Y2]. split; [constructor; auto|]. now apply Forall_app.
Qed.

Definition saved_ok (f : fdesc) (saved : option (val * list val)) : Prop :=
  forall x h, saved = Some (x, h) -> is_oneof f = false /\ holds_nothing true f x /\
    (h <> [] -> exists p k m', f_ty f = TField (LRepeated p) k /\ sub_of k = Some m') /\
    forall p k m' y, f_ty f = TField (LRepeated p) k -> sub_of k = Some m' -> In y h -> spare_ok m' y.

Lemma rf_list_inv m f p k a b : f_ty f = TField (LRepeated p) k -> rf m f a b -> (a = VNil \/ exists l, a = VList l) /\ Forall2 (rv k) (vlist a) (vlist b).
Proof.
  intros T H. inversion H as [? ? ? ? ? T0 X|? ? ? ? T0 L|? ? ? T0 L K|? ? ? ? ? ? T0 L K X|? ? ? ? ? ? T0 L K1 K2 Na Nb X|? ? ? ? ? ? T0 Sa Sb X|? ? ? ? ? ? T0 Sa Sb X|? ? ? T0|? ? ? ? ? ? T0 Nn|? ? ? ? ? T0 X]; subst; rewrite T in T0; try discriminate;
    try (destruct L; subst; discriminate). injection T0 as <- <-. auto.
Qed.
Lemma rv_rs k m a b : sub_of k = Some m -> rv k a b -> rs m a b.
Proof. intros S H. inversion H as [? ? N|? ? ? K|? m'' ? ? S' R]; subst; [destruct k; discriminate|destruct K; subst; discriminate|]. rewrite S in S'. now injection S' as <-. Qed.
Lemma classify_sub k m : sub_of k = Some m -> classify k = CMsg m \/ classify k = CGrp m.
Proof. destruct k; try discriminate; cbn; intros [= ->]; auto. Qed.

Lemma reset_field_ok m s u h s' h' f saved q : rm m (VMsg s u h) (VMsg s' u h') -> In f (md_fields (md_of sc m)) ->
  reset_field sc rec f s h = Ok (saved, q) -> saved_ok f saved /\ Forall good q.
Proof.
  intros R Hf E. inversion R as [? ? ? ? ? ? L1 L2 F Sp N]; subst. specialize (F f Hf). pose proof (wf_ty sc m f W Hf) as Wt.
  assert (saved_ok f None) as SN by (intros x h0; discriminate).
  unfold reset_field in E. set (v := slot s (f_slot f)) in *. set (w := slot s' (f_slot f)) in *. destruct (f_ty f) as [lbl k|kk vk] eqn:T; [|injection E as <- <-; auto].
  destruct lbl.
  - (* implicit *)
    assert (sub_of k = None) as S by (cbn in Wt; destruct (sub_of k); [rewrite andb_false_r in Wt; discriminate|reflexivity]).
    assert (k = KBytes \/ k <> KBytes) as [->|NB] by (destruct k; auto; right; discriminate).
    + cbn [classify] in E. injection E as <- <-. split; [|constructor]. intros x h0 [= <- <-]. unfold is_oneof, holds_nothing. rewrite T. split; [reflexivity|]. split; [|split; [intros Nn; destruct (Nn eq_refl)|intros; discriminate]].
      cbn [is_num is_bytes]. assert (v = VNil \/ exists z, v = VBytes z) as [->|[z ->]]; [|now left|now right].
      inversion F as [? ? ? ? ? T0 X|? ? ? ? T0 L|? ? ? T0 L K|? ? ? ? ? ? T0 L K X|? ? ? ? ? ? T0 L K1 K2 Na Nb X|? ? ? ? ? ? T0 Sa Sb X|? ? ? ? ? ? T0 Sa Sb X|? ? ? T0|? ? ? ? ? ? T0 Nn|? ? ? ? ? T0 X]; subst; rewrite T in T0; try discriminate; try (destruct L; subst; discriminate).
      injection T0 as <-. inversion X as [? ? Nn|? ? ? K Oa|? ? ? ? S']; subst; try discriminate. destruct Oa as [[? _]|[_ O]]; [discriminate|auto].
    + assert (forall a b : res unit (option (val * list val) * puts), match classify k with CMsg m0 | CGrp m0 => if md_pool (md_of sc m0) then do p <- return_sub rec m0 v; Ok (None, p) else Ok (None, []) | CByt => a | _ => Ok (None, []) end = Ok (None, [])) as Z
        by (intros; destruct k; try discriminate S; try congruence; reflexivity).
      rewrite Z in E by exact Panic. injection E as <- <-. auto.
  - destruct (sub_of k) as [m'|] eqn:S.
    + assert (rs m' v w) as Rs.
      { inversion F as [? ? ? ? ? T0 X|? ? ? ? T0 L|? ? ? T0 L K|? ? ? ? ? ? T0 L K X|? ? ? ? ? ? T0 L K1 K2 Na Nb X|? ? ? ? ? ? T0 Sa Sb X|? ? ? ? ? ? T0 Sa Sb X|? ? ? T0|? ? ? ? ? ? T0 Nn|? ? ? ? ? T0 X]; subst; rewrite T in T0; try discriminate.
        - apply rs_nil.
        - injection T0 as _ ->. discriminate.
        - injection T0 as <- <-. destruct K as [K| ->]; [destruct k|]; discriminate.
        - injection T0 as <- <-. eapply rv_rs; eauto. }
      assert ((if md_pool (md_of sc m') then do p <- return_sub rec m' v; Ok (None, p) else Ok (None, [])) = Ok (saved, q) :> res unit (option (val * list val) * puts)) as E' by (destruct (classify_sub k m' S) as [C|C]; rewrite C in E; exact E).
      destruct (md_pool (md_of sc m')) eqn:P; [|injection E' as <- <-; auto].
      destruct (return_sub rec m' v) as [q'| | |] eqn:Er; cbn in E'; try discriminate. injection E' as <- <-. split; [assumption|]. eapply return_sub_ok; eauto.
    + assert (k = KBytes \/ k <> KBytes) as [->|NB] by (destruct k; auto; right; discriminate).
      * cbn [classify] in E. injection E as <- <-. split; [|constructor]. intros x h0 [= <- <-]. unfold is_oneof, holds_nothing. rewrite T. split; [reflexivity|]. split; [|split; [intros Nn; destruct (Nn eq_refl)|intros; discriminate]].
        assert (v = VNil \/ exists z, v = VBytes z) as [->|[z ->]]; [|now left|right; auto].
        inversion F as [? ? ? ? ? T0 X|? ? ? ? T0 L|? ? ? T0 L K|? ? ? ? ? ? T0 L K X|? ? ? ? ? ? T0 L K1 K2 Na Nb X|? ? ? ? ? ? T0 Sa Sb X|? ? ? ? ? ? T0 Sa Sb X|? ? ? T0|? ? ? ? ? ? T0 Nn|? ? ? ? ? T0 X]; subst; rewrite T in T0; try discriminate; eauto.
        -- injection T0 as <- <-. destruct K as [K|K]; discriminate.
        -- injection T0 as <- <-. inversion X as [? ? Nn|? ? ? K Oa|? ? ? ? S']; subst; try discriminate. destruct Oa as [[? _]|[_ O]]; [discriminate|auto].
      * assert (forall a : res unit (option (val * list val) * puts), match classify k with CMsg m0 | CGrp m0 => if md_pool (md_of sc m0) then do p <- return_sub rec m0 v; Ok (None, p) else Ok (None, []) | CByt => a | _ => Ok (None, []) end = Ok (None, [])) as Z
          by (intros; destruct k; try discriminate S; try congruence; reflexivity).
        rewrite Z in E. injection E as <- <-. auto.
  - destruct (sub_of k) as [m'|] eqn:S.
    + assert (rs m' v w) as Rs.
      { inversion F as [? ? ? ? ? T0 X|? ? ? ? T0 L|? ? ? T0 L K|? ? ? ? ? ? T0 L K X|? ? ? ? ? ? T0 L K1 K2 Na Nb X|? ? ? ? ? ? T0 Sa Sb X|? ? ? ? ? ? T0 Sa Sb X|? ? ? T0|? ? ? ? ? ? T0 Nn|? ? ? ? ? T0 X]; subst; rewrite T in T0; try discriminate.
        - apply rs_nil.
        - injection T0 as _ ->. discriminate.
        - injection T0 as <- <-. destruct K as [K| ->]; [destruct k|]; discriminate.
        - injection T0 as <- <-. eapply rv_rs; eauto. }
      assert ((if md_pool (md_of sc m') then do p <- return_sub rec m' v; Ok (None, p) else Ok (None, [])) = Ok (saved, q) :> res unit (option (val * list val) * puts)) as E' by (destruct (classify_sub k m' S) as [C|C]; rewrite C in E; exact E).
      destruct (md_pool (md_of sc m')) eqn:P; [|injection E' as <- <-; auto].
      destruct (return_sub rec m' v) as [q'| | |] eqn:Er; cbn in E'; try discriminate. injection E' as <- <-. split; [assumption|]. eapply return_sub_ok; eauto.
    + assert (k = KBytes \/ k <> KBytes) as [->|NB] by (destruct k; auto; right; discriminate).
      * cbn [classify] in E. injection E as <- <-. split; [|constructor]. intros x h0 [= <- <-]. unfold is_oneof, holds_nothing. rewrite T. split; [reflexivity|]. split; [|split; [intros Nn; destruct (Nn eq_refl)|intros; discriminate]].
        assert (v = VNil \/ exists z, v = VBytes z) as [->|[z ->]]; [|now left|right; auto].
        inversion F as [? ? ? ? ? T0 X|? ? ? ? T0 L|? ? ? T0 L K|? ? ? ? ? ? T0 L K X|? ? ? ? ? ? T0 L K1 K2 Na Nb X|? ? ? ? ? ? T0 Sa Sb X|? ? ? ? ? ? T0 Sa Sb X|? ? ? T0|? ? ? ? ? ? T0 Nn|? ? ? ? ? T0 X]; subst; rewrite T in T0; try discriminate; eauto.
        -- injection T0 as <- <-. destruct K as [K|K]; discriminate.
        -- injection T0 as <- <-. inversion X as [? ? Nn|? ? ? K Oa|? ? ? ? S']; subst; try discriminate. destruct Oa as [[? _]|[_ O]]; [discriminate|auto].
      * assert (forall a : res unit (option (val * list val) * puts), match classify k with CMsg m0 | CGrp m0 => if md_pool (md_of sc m0) then do p <- return_sub rec m0 v; Ok (None, p) else Ok (None, []) | CByt => a | _ => Ok (None, []) end = Ok (None, [])) as Z
          by (intros; destruct k; try discriminate S; try congruence; reflexivity).
        rewrite Z in E. injection E as <- <-. auto.
  - destruct (rf_list_inv m f packed k v w T F) as [SH Fl].
    assert (holds_nothing true f (truncate v)) as HN by (unfold holds_nothing; rewrite T; destruct SH as [->|[l ->]]; cbn; auto).
    assert (is_oneof f = false) as O by (unfold is_oneof; now rewrite T).
    destruct (sub_of k) as [m'|] eqn:S.
    + assert ((do r <- reset_elems sc rec m' (vlist v); Ok (Some (truncate v, fst r ++ nth (f_slot f) h []), snd r)) = Ok (saved, q) :> res unit (option (val * list val) * puts)) as E' by (destruct (classify_sub k m' S) as [C|C]; rewrite C in E; exact E).
      destruct (reset_elems sc rec m' (vlist v)) as [[r q']| | |] eqn:Er; cbn in E'; try discriminate. injection E' as <- <-.
      destruct (reset_elems_ok m' (vlist v)) with (r := r) (q := q') as [A B]; [|exact Er|].
      { intros x Hx. clear - Fl Hx S. induction Fl as [|a b l l' V Fl IH]; [destruct Hx|]. destruct Hx as [->|Hx]; [|auto]. exists b. eapply rv_rs; eauto. }
      split; [|exact B]. intros x h0 [= <- <-]. split; [assumption|]. split; [assumption|]. split; [eauto|]. intros p0 k0 m0 y T0 S0 Hy. rewrite T in T0. injection T0 as <- <-. rewrite S in S0. injection S0 as <-.
      apply in_app_or in Hy as [Hy|Hy]; [rewrite Forall_forall in A; auto|]. destruct (Sp f packed k m' y Hf T S Hy) as [->|Ry]; [now left|].
      destruct (val_eq_nil y) as [->|Ny]; [now left|right]. now apply rs_new_clear.
    + assert (Ok (Some (truncate v, []), []) = Ok (saved, q) :> res unit (option (val * list val) * puts)) as E' by (destruct k; try discriminate S; exact E).
      injection E' as <- <-. split; [|constructor]. intros x h0 [= <- <-]. split; [assumption|]. split; [assumption|]. split; [intros Nn; destruct (Nn eq_refl)|]. intros p0 k0 m0 y T0 S0 [].
  - destruct (sub_of k) as [m'|] eqn:S.
    + assert (match v with VOneof n x => if (n =? f_num f) && md_pool (md_of sc m') then do p <- return_sub rec m' x; Ok (None, p) else Ok (None, []) | _ => Ok (None, []) end = Ok (saved, q) :> res unit (option (val * list val) * puts)) as E'
        by (destruct (classify_sub k m' S) as [C|C]; rewrite C in E; exact E).
      assert (Ok (None, []) = Ok (saved, q) :> res unit (option (val * list val) * puts) -> saved_ok f saved /\ Forall good q) as D by (intros [= <- <-]; auto).
      destruct v as [|z|z|z|x|l|l|n x|z uu hh|o z|o z] eqn:Ev; try (exact (D E')). destruct (n =? f_num f) eqn:En; [|exact (D E')]. destruct (md_pool (md_of sc m')) eqn:P; [|exact (D E')]. cbn [andb] in E'.
      destruct (return_sub rec m' x) as [q'| | |] eqn:Er; cbn in E'; try discriminate. injection E' as <- <-. split; [assumption|].
      apply Z.eqb_eq in En. subst n.
      inversion F as [? ? ? ? ? T0 X|? ? ? ? T0 L|? ? ? T0 L K|? ? ? ? ? ? T0 L K X|? ? ? ? ? ? T0 L K1 K2 Na Nb X|? ? ? ? ? ? T0 Sa Sb X|? ? ? ? ? ? T0 Sa Sb X|? ? ? T0|? ? ? ? ? ? T0 Nn|? ? ? ? ? T0 X]; subst; rewrite T in T0; try discriminate; try (destruct L; subst; discriminate); try congruence.
      injection T0 as <-. eapply return_sub_ok; eauto. eapply rv_rs; eauto.
    + assert (Ok (None, []) = Ok (saved, q) :> res unit (option (val * list val) * puts)) as E' by (destruct k; try discriminate S; exact E).
      injection E' as <- <-. auto.
Qed.

Lemma reset_fields_ok m s u h s' h' : rm m (VMsg s u h) (VMsg s' u h') -> forall fs, incl fs (md_fields (md_of sc m)) -> forall acc acch a hh q,
  length acc = md_nslots (md_of sc m) ->
  (forall g, In g (md_fields (md_of sc m)) -> holds_nothing true g (slot acc (f_slot g))) ->
  (forall g p k m' y, In g (md_fields (md_of sc m)) -> f_ty g = TField (LRepeated p) k -> sub_of k = Some m' -> In y (nth (f_slot g) acch []) -> spare_ok m' y) ->
  md_pool (md_of sc m) = true -> (forall i, nth i acch [] <> [] -> message_list sc m i) ->
  reset_fields sc rec s h fs acc acch = Ok (a, hh, q) ->
  length a = md_nslots (md_of sc m) /\ (forall g, In g (md_fields (md_of sc m)) -> holds_nothing true g (slot a (f_slot g))) /\
  (forall g p k m' y, In g (md_fields (md_of sc m)) -> f_ty g = TField (LRepeated p) k -> sub_of k = Some m' -> In y (nth (f_slot g) hh []) -> spare_ok m' y) /\ (forall i, nth i hh [] <> [] -> message_list sc m i) /\ Forall good q.
Proof.
  intros R. induction fs as [|f fs IH]; intros I acc acch a hh q La HN HH Pm TT E; cbn [reset_fields] in E; [injection E as <- <- <-; auto 6|].
  destruct (reset_field sc rec f s h) as [[saved q1]| | |] eqn:Ef; cbn [rbind] in E; try discriminate.
  assert (In f (md_fields (md_of sc m))) as Hf by (apply I; now left).
  destruct (reset_field_ok m s u h s' h' f saved q1 R Hf Ef) as [SO G1].
  assert (exists acc' acch', (match saved with Some (x, h0) => (list_set acc (f_slot f) x, list_set acch (f_slot f) h0) | None => (acc, acch) end) = (acc', acch') /\
    length acc' = md_nslots (md_of sc m) /\ (forall g, In g (md_fields (md_of sc m)) -> holds_nothing true g (slot acc' (f_slot g))) /\
    (forall g p k m' y, In g (md_fields (md_of sc m)) -> f_ty g = TField (LRepeated p) k -> sub_of k = Some m' -> In y (nth (f_slot g) acch' []) -> spare_ok m' y) /\ (forall i, nth i acch' [] <> [] -> message_list sc m i)) as (acc' & acch' & Ea & La' & HN' & HH' & TT').
  { destruct saved as [[x h0]|]; [|exists acc, acch; auto 6]. destruct (SO x h0 eq_refl) as (O & Nx & Ht & Hh). exists (list_set acc (f_slot f) x), (list_set acch (f_slot f) h0). split; [reflexivity|].
    split; [now rewrite list_set_length|].
    assert (forall g, In g (md_fields (md_of sc m)) -> f_slot f = f_slot g -> g = f) as SE.
    { intros g Hg E1. destruct (Z.eq_dec (f_num f) (f_num g)) as [En|En]; [symmetry; eapply wf_num_inj; eauto|].
      destruct (wf_compat sc m f g W Hf Hg) as [_ C]; [congruence|]. destruct (C E1) as [Of Og]. congruence. }
    split; [|split].
    - intros g Hg. destruct (Nat.eq_dec (f_slot f) (f_slot g)) as [E1|E1]; [|rewrite slot_set_neq by assumption; auto].
      rewrite (SE g Hg E1). rewrite slot_set_eq; [exact Nx|]. rewrite La. exact (wf_slot sc m f W Hf).
    - intros g p k m' y Hg T S Hy. destruct (Nat.eq_dec (f_slot f) (f_slot g)) as [E1|E1]; [|rewrite nth_list_set_neq in Hy by assumption; eauto].
      pose proof (SE g Hg E1) as ->. destruct (lt_dec (f_slot f) (length acch)) as [Lt|Ge].
      + rewrite nth_list_set_eq in Hy by assumption. eauto.
      + rewrite nth_overflow in Hy; [destruct Hy|]. rewrite list_set_length. lia.
    - intros i Ni. destruct (Nat.eq_dec (f_slot f) i) as [<-|E1]; [|rewrite nth_list_set_neq in Ni by assumption; auto].
      destruct (lt_dec (f_slot f) (length acch)) as [Lt|Ge]; [|rewrite nth_overflow in Ni by (rewrite list_set_length; lia); destruct (Ni eq_refl)].
      rewrite nth_list_set_eq in Ni by assumption. destruct (Ht Ni) as (p & k & m' & T & S). split; [exact Pm|]. exists f, p, k, m'. auto. }
  rewrite Ea in E. destruct (reset_fields sc rec s h fs acc' acch') as [[[a2 h2] q2]| | |] eqn:Er; cbn [rbind] in E; try discriminate. injection E as <- <- <-.
  destruct (IH (fun g Hg => I g (or_intror Hg)) acc' acch' a2 h2 q2 La' HN' HH' Pm TT' Er) as (A & B & C & TA & D). split; [|split; [|split; [|split]]]; auto. now apply Forall_app.
Qed.

Lemma nothing_zero kept f : (exists m, In f (md_fields (md_of sc m))) -> holds_nothing kept f (zero_of (f_ty f)).
Proof.
  intros [m Hf]. pose proof (wf_ty sc m f W Hf) as Wt. unfold holds_nothing. destruct (f_ty f) as [[| | |p|] k|kk vk]; cbn [zero_of]; auto.
  destruct k; cbn; auto; cbn in Wt; rewrite andb_false_r in Wt; discriminate.
Qed.
Lemma nth_repeat_nil {A} n i : nth i (repeat (@nil A) n) [] = [].
Proof. revert i. induction n as [|n IH]; intros [|i]; cbn; auto. Qed.

Lemma reset_body_ok m v b v' q : md_pool (md_of sc m) = true -> rm m v b -> reset_body sc rec m v = Ok (v', q) -> emptied sc m v' /\ tidy sc m v' /\ Forall good q.
Proof.
  intros P R E. destruct (rm_vmsg sc text keeps m v b R) as (s & u & h & s' & h' & -> & ->). cbn [reset_body] in E.
  destruct (reset_fields _ _ _ _ _ _ _) as [[[a hh] q']| | |] eqn:Er; cbn [rbind] in E; try discriminate. injection E as <- <-.
  assert (length (zero_slots (md_of sc m)) = md_nslots (md_of sc m)) as P1 by (unfold zero_slots; now rewrite map_length, seq_length).
  pose proof (fun P2 P3 P4 => reset_fields_ok m s u h s' h' R (md_fields (md_of sc m)) (incl_refl _) _ _ a hh q' P1 P2 P3 P P4 Er) as RF.
  destruct RF as (A & B & C & TA & D).
  { intros g Hg. rewrite (zero_slots_of sc W m g Hg). apply nothing_zero. eauto. }
  { intros g p k m' y _ _ _ Hy. rewrite nth_repeat_nil in Hy. destruct Hy. }
  { intros i Ni. rewrite nth_repeat_nil in Ni. destruct (Ni eq_refl). }
  split; [|split; [|exact D]].
  - exists a, hh. split; [reflexivity|]. split; [exact A|]. rewrite P. exact B.
  - apply tidy_of.
    { intros m1 s1 u1 h1 i Hw F1 Ni. remember (VMsg a [] hh) as v eqn:Ev. remember (VMsg s1 u1 h1) as w eqn:Ew.
      destruct Hw as [m v|m s2 u2 h2 f2 k2 m2 y m3 z F2 Hf2 Hh S2 Hw].
      - rewrite Ev in Ew. injection Ew as <- <- <-. now apply TA.
      - injection Ev as -> -> ->. destruct (nothing_holds true f2 _ k2 y m2 (B f2 Hf2) Hh S2). }
    intros m' y Hs. destruct (spare_sub m a [] hh m' y Hs) as [(f & p & k & Fo & Hf & T & S & Hin & Nx)|(f & k & m1 & z & Hf & Hh & S & Hs')].
    + destruct (C f p k m' y Hf T S Hin) as [->|?]; [congruence|assumption].
    + destruct (nothing_holds true f _ k z m1 (B f Hf) Hh S).
Qed.
End Reset.

Lemma reset_msg_ok n : forall m v b v' q, md_pool (md_of sc m) = true -> rm m v b -> reset_msg sc n m v = Ok (v', q) -> emptied sc m v' /\ tidy sc m v' /\ Forall good q.
Proof. induction n as [|n IH]; intros m v b v' q P R E; [discriminate|]. cbn [reset_msg] in E. eapply reset_body_ok; eauto. Qed.
Lemma ResetVT_ok m v b v' q : md_pool (md_of sc m) = true -> rm m v b -> ResetVT sc m v = Ok (v', q) -> emptied sc m v' /\ tidy sc m v' /\ Forall good q.
Proof. apply reset_msg_ok. Qed.
Lemma ReturnToVTPool_ok m v b q : md_pool (md_of sc m) = true -> rs m v b -> ReturnToVTPool sc m v = Ok q -> Forall good q.
Proof. intros P R E. apply (return_sub_ok (fun m v => ResetVT sc m v) ResetVT_ok m v b q P R). destruct v; exact E. Qed.
End Pool.
