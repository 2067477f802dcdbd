(** UnmarshalVTUnsafe and UnmarshalVT run in step. *)
From Coq Require Import ZArith List Bool Lia.
From Verif Require Import Base BaseFacts Schema Value Helpers Unmarshal Clone Pool Unsafe WireSpec Typing MsgSpec DecodeSpec ContentSpec PoolSpec UnsafeSpec
  MarshalFacts TargetFacts SameFacts EqualRel RunRel RunFacts PoolFacts PoolRun.
Import ListNotations.
Open Scope Z_scope.

(** * Weaker conditions on strings *)
Section Mono.
Variable sc : schema.
Variable okt okt' : kind -> val -> Prop.
Variable kept kept' : nat -> Prop.
Hypothesis OO : forall k a, okt k a -> okt' k a.
Hypothesis KK : forall m, kept m -> kept' m.
Fixpoint rv_mono k a b (H : rv sc okt kept k a b) {struct H} : rv sc okt' kept' k a b
with rs_mono m a b (H : rs sc okt kept m a b) {struct H} : rs sc okt' kept' m a b
with rf_mono m f a b (H : rf sc okt kept m f a b) {struct H} : rf sc okt' kept' m f a b
with rm_mono m a b (H : rm sc okt kept m a b) {struct H} : rm sc okt' kept' m a b.
Proof.
  - destruct H as [k z Nk|k a b K Oa Pb E|k m a b S R].
    + now apply rv_num.
    + apply rv_text; auto.
    + eapply rv_sub; [exact S|]. exact (rs_mono m a b R).
  - destruct H as [m|m a b F Ta Tb E|m a b F R]; [apply rs_nil|now apply rs_up|]. apply rs_msg; [exact F|]. exact (rm_mono m a b R).
  - destruct H as [m f k a b T X|m f l k T L|m f l T L K|m f l k a b T L K X|m f l k a b T L K1 K2 Na Nb X|m f p k a b T Sa Sb X|m f kk vk a b T Sa Sb X|m f k T|m f k n x y T Nn|m f k x y T X].
    + eapply rf_implicit; [exact T|]. exact (rv_mono k a b X).
    + eapply rf_unset; eauto.
    + eapply rf_kept; eauto.
    + eapply rf_ptr; [exact T|exact L|exact K|]. exact (rv_mono k a b X).
    + eapply rf_direct; [exact T|exact L|exact K1|exact K2|exact Na|exact Nb|]. exact (rv_mono k a b X).
    + eapply rf_list; [exact T|exact Sa|exact Sb|]. clear Sa Sb. induction X as [|x y l l' V X IH]; constructor; [exact (rv_mono k x y V)|exact IH].
    + eapply rf_map; [exact T|exact Sa|exact Sb|]. clear Sa Sb. induction X as [|x y l l' V X IH]; constructor; [|exact IH].
      destruct V as [V1 V2]. split; [exact (rv_mono kk _ _ V1)|exact (rv_mono vk _ _ V2)].
    + eapply rf_none; eauto.
    + eapply rf_other; eauto.
    + eapply rf_member; [exact T|]. exact (rv_mono k x y X).
  - destruct H as [m s u h s' h' L1 L2 F Sp Nh Ty]. constructor; [exact L1|exact L2| | |exact Nh|exact Ty].
    + intros f Hf. exact (rf_mono m f _ _ (F f Hf)).
    + intros f p k m' x Hf T S Hx. destruct (Sp f p k m' x Hf T S Hx) as [E|R]; [now left|right; exact (rs_mono m' x _ R)].
Qed.
End Mono.

(** * Strings inside related messages *)
Section Inside.
Variable sc : schema.
Variable okt : kind -> val -> Prop.
Variable kept : nat -> Prop.
Hypothesis OB : okt KBytes (VBytes []).
Lemma rv_text_ok k a b : k = KString \/ k = KBytes -> rv sc okt kept k a b -> okt k a.
Proof. intros K H. destruct H as [k z Nk|k a b K' Oa Pb E|k m a b S R]; [destruct K; subst; discriminate|exact Oa|destruct K; subst; discriminate]. Qed.
Lemma fa2_in {A} (P : A -> val -> Prop) l l' x : Forall2 P l l' -> In x l -> exists y, P x y.
Proof. intros H. induction H as [|u v lu lv V X IH]; intros []; subst; eauto. Qed.
Lemma rf_text_ok m f x y k a : rf sc okt kept m f x y -> text_of f x k a -> k = KString \/ k = KBytes -> okt k a.
Proof.
  intros R H K. destruct H as [f k a T|f l a T L|f l a T L N|f p k l a T I|f k vk l a z T I|f kk k l z a T I|f k a T];
    inversion R as [? ? ? ? ? T0 X|? ? ? ? T0 L0|? ? ? T0 L0 Kp|? ? ? ? ? ? T0 L0 K0 X|? ? ? ? ? ? T0 L0 K1 K2 Na Nb X|? ? ? ? ? ? T0 Sa Sb X|? ? ? ? ? ? T0 Sa Sb X|? ? ? T0|? ? ? ? ? ? T0 Nn|? ? ? ? ? T0 X]; subst;
    rewrite T in T0; try discriminate T0; try congruence; try (injection T0; intros; subst);
    try (match goal with H : _ = LOptional \/ _ |- _ => destruct H; discriminate end); try (eapply rv_text_ok; eauto; fail); auto.
  all: try (destruct K0; discriminate).
  - destruct (fa2_in _ _ _ a X I) as [w V]. eapply rv_text_ok; eauto.
  - cbn [vmap] in X. clear Sa Sb R. revert I. induction X as [|u v lu lv [V1 V2] X IH]; intros []; subst; [eapply rv_text_ok; eauto|auto].
  - cbn [vmap] in X. clear Sa Sb R. revert I. induction X as [|u v lu lv [V1 V2] X IH]; intros []; subst; [eapply rv_text_ok; eauto|auto].
Qed.
Lemma rv_sub_of k m a b : sub_of k = Some m -> rv sc okt kept k a b -> rs sc okt kept m a b.
Proof. intros S H. destruct H as [k z Nk|k a b K' Oa Pb E|k m0 a b S0 R]; [destruct k; discriminate|destruct K'; subst; discriminate|congruence]. Qed.
Lemma rf_holds m f x y k m' z : rf sc okt kept m f x y -> holds f x k z -> sub_of k = Some m' -> exists w, rs sc okt kept m' z w.
Proof.
  intros R H S. destruct H as [f p k l a T I|f kk k l z a T I|f l k a T L N|f k a T];
    inversion R as [? ? ? ? ? T0 X|? ? ? ? T0 L0|? ? ? T0 L0 Kp|? ? ? ? ? ? T0 L0 K0 X|? ? ? ? ? ? T0 L0 K1 K2 Na Nb X|? ? ? ? ? ? T0 Sa Sb X|? ? ? ? ? ? T0 Sa Sb X|? ? ? T0|? ? ? ? ? ? T0 Nn|? ? ? ? ? T0 X]; subst;
    rewrite T in T0; try discriminate T0; try congruence; try (injection T0; intros; subst);
    try (match goal with H : _ = LOptional \/ _ |- _ => destruct H; discriminate end); try discriminate S; try (eexists; eapply rv_sub_of; eauto; fail).
  - destruct (fa2_in _ _ _ a X I) as [w V]. eexists. eapply rv_sub_of; eauto.
  - cbn [vmap] in X. clear Sa Sb R. revert I. induction X as [|u v lu lv [V1 V2] X IH]; intros []; subst; [eexists; eapply rv_sub_of; eauto|auto].
  - match goal with H : is_num ?q = true \/ _ |- _ => destruct H; [destruct q|subst]; discriminate end.
Qed.
Lemma rs_within m v m1 x : within sc m v m1 x -> forall b, rs sc okt kept m v b -> exists b', rs sc okt kept m1 x b'.
Proof.
  induction 1 as [|m s u h f k m1 x m' z F Hf Hh S H IH]; intros b R; [eauto|].
  inversion R as [|? ? ? F'|? ? ? F' R']; subst; [congruence|]. inversion R' as [? ? ? ? s' h' L1 L2 RF Sp N]; subst.
  destruct (rf_holds m f _ _ k m1 x (RF f Hf) Hh S) as [w Rw]. eapply IH; eauto.
Qed.
Lemma rs_text m v b k a : rs sc okt kept m v b -> text_in sc m v k a -> okt k a.
Proof.
  intros R [m1 s u h f Hw F Hf Ht K]. destruct (rs_within m v m1 _ Hw b R) as [b' R'].
  inversion R' as [|? ? ? F'|? ? ? F' RM]; subst; [congruence|]. inversion RM as [? ? ? ? s' h' L1 L2 RF Sp N]; subst.
  eapply rf_text_ok; eauto.
Qed.
End Inside.

(** * UnmarshalVTUnsafe *)
(** Copied, or an exact part of [D]. *)
Definition aliased (D : list Z) (k : kind) (a : val) : Prop :=
  text k a \/ (exists off s, zslice D off (off + zlen s) = Some s /\ ((k = KString /\ s <> [] /\ a = VRefS off s) \/ (k = KBytes /\ a = VRefB off s))).
(** Empty, or an exact part of [D]. *)
Definition aliased_only (D : list Z) (k : kind) (a : val) : Prop :=
  (k = KString /\ a = VStr []) \/ (k = KBytes /\ (a = VNil \/ a = VBytes [])) \/
  (exists off s, zslice D off (off + zlen s) = Some s /\ ((k = KString /\ s <> [] /\ a = VRefS off s) \/ (k = KBytes /\ a = VRefB off s))).

Lemma zslice_nest D base len d i j s : zslice D base (base + len) = Some d -> zslice d i j = Some s -> zslice D (base + i) (base + i + zlen s) = Some s.
Proof.
  intros H1 H2. destruct (zslice_inv _ _ _ _ H1) as (p & q & -> & <- & L1). destruct (zslice_inv _ _ _ _ H2) as (p' & q' & -> & <- & L2).
  rewrite <- !app_assoc. replace (p ++ p' ++ s ++ q' ++ q) with ((p ++ p') ++ s ++ (q' ++ q)) by (rewrite <- !app_assoc; reflexivity).
  replace (zlen p + zlen p') with (zlen (p ++ p')) by (unfold zlen; rewrite app_length; lia). apply zslice_app.
Qed.

Section Top.
Variable sc : schema.
Hypothesis W : wf_schema sc = true.
Hypothesis UD : up_dec_ok sc.
Variable D : list Z.
Variable okt : kind -> val -> Prop.
Variable kept : nat -> Prop.
Hypothesis O1 : okt KString (VStr []).
Hypothesis O2 : okt KBytes VNil.
Hypothesis O3 : forall off s, zslice D off (off + zlen s) = Some s -> s <> [] -> okt KString (VRefS off s).
Hypothesis O4 : forall off s, zslice D off (off + zlen s) = Some s -> okt KBytes (VRefB off s).
Hypothesis O5 : forall a, okt KString a -> match a with VStr _ | VRefS _ _ => True | _ => False end.
Hypothesis UX : forall m bs v, md_foreign (md_of sc m) = false -> up_ext (sc_up sc) m bs = Some v -> rm sc okt kept m v v.
Notation rs := (rs sc okt kept).
Lemma um_unsafe_rr al n : (forall path m, md_pool (md_of sc m) = true -> rs m (al path m) (new_msg (md_of sc m))) ->
  forall path base m data x y, zslice D base (base + zlen data) = Some data -> md_foreign (md_of sc m) = false -> rs m x y ->
  rr (rs m) (rs m) (um_unsafe sc al n path base m data x) (um_msg sc n m data y).
Proof.
  intros AL. induction n as [|n IH]; intros path base m data x y B F R; [exact I|]. cbn [um_unsafe um_msg].
  apply (um_body_rr sc W UD okt kept); auto.
  - intros i m0 buf x0 y0 [j Zt] F0 R0. apply IH; auto. eapply zslice_nest; eauto.
  - intros i m0 P. apply AL. exact P.
  - intros i s [j Zt]. cbn. destruct s; [auto|]. split; [|reflexivity]. apply O3; [eapply zslice_nest; eauto|discriminate].
  - intros i s [j Zt]. cbn. split; [apply O4; eapply zslice_nest; eauto|]. split; [reflexivity|discriminate].
Qed.
End Top.

(** * Messages related to themselves *)
Section Self.
Variable sc : schema.
Variable okt : kind -> val -> Prop.
Variable kept kept' : nat -> Prop.
Fixpoint rv_self k a b (H : rv sc okt kept k a b) {struct H} : a = b -> rv sc okt kept' k a b
with rs_self m a b (H : rs sc okt kept m a b) {struct H} : a = b -> rs sc okt kept' m a b
with rf_self m f a b (H : rf sc okt kept m f a b) {struct H} : a = b -> rf sc okt kept' m f a b
with rm_self m a b (H : rm sc okt kept m a b) {struct H} : a = b -> rm sc okt kept' m a b.
Proof.
  - destruct H as [k z Nk|k a b K Oa Pb E|k m a b S R]; intros Eq.
    + now apply rv_num.
    + apply rv_text; auto.
    + eapply rv_sub; [exact S|]. exact (rs_self m a b R Eq).
  - destruct H as [m|m a b F Ta Tb E|m a b F R]; intros Eq; [apply rs_nil|now apply rs_up|]. apply rs_msg; [exact F|]. exact (rm_self m a b R Eq).
  - destruct H as [m f k a b T X|m f l k T L|m f l T L K|m f l k a b T L K X|m f l k a b T L K1 K2 Na Nb X|m f p k a b T Sa Sb X|m f kk vk a b T Sa Sb X|m f k T|m f k n x y T Nn|m f k x y T X]; intros Eq.
    + eapply rf_implicit; [exact T|]. exact (rv_self k a b X Eq).
    + eapply rf_unset; eauto.
    + discriminate.
    + injection Eq as Eq. eapply rf_ptr; [exact T|exact L|exact K|]. exact (rv_self k a b X Eq).
    + eapply rf_direct; [exact T|exact L|exact K1|exact K2|exact Na|exact Nb|]. exact (rv_self k a b X Eq).
    + eapply rf_list; [exact T|exact Sa|exact Sb|]. assert (vlist a = vlist b) as E by now rewrite Eq. clear Sa Sb Eq.
      induction X as [|x y l l' V X IH]; constructor; injection E as E1 E2; [exact (rv_self k x y V E1)|exact (IH E2)].
    + eapply rf_map; [exact T|exact Sa|exact Sb|]. assert (vmap a = vmap b) as E by now rewrite Eq. clear Sa Sb Eq.
      induction X as [|x y l l' V X IH]; constructor; injection E as E1 E2; [|exact (IH E2)].
      destruct V as [V1 V2]. split; [exact (rv_self kk _ _ V1 (f_equal fst E1))|exact (rv_self vk _ _ V2 (f_equal snd E1))].
    + eapply rf_none; eauto.
    + eapply rf_other; eauto.
    + injection Eq as Eq. eapply rf_member; [exact T|]. exact (rv_self k x y X Eq).
  - destruct H as [m s u h s' h' L1 L2 F Sp Nh Ty]; intros Eq. injection Eq as E1 E2. constructor; [exact L1|exact L2| | |exact Nh|exact Ty].
    + intros f Hf. exact (rf_self m f _ _ (F f Hf) (f_equal (fun l => slot l (f_slot f)) E1)).
    + intros f p k m' x Hf T S Hx. rewrite E2 in Hx. rewrite Nh in Hx. destruct Hx.
Qed.
End Self.
Lemma compact_rm sc kept m v : wf_schema sc = true -> md_foreign (md_of sc m) = false -> wt_msg sc m v -> trim v = v -> rm sc text kept m v v.
Proof.
  intros W F T C. apply (rm_self sc text (keeps sc) kept m v v); [|reflexivity]. rewrite <- C at 2. apply tidy_rm; auto. now apply compact_tidy.
Qed.
