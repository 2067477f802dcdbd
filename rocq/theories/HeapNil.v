(** Decoding on memory against decoding on trees, keeping track that the trees have no
    nil elements in lists of messages: what ResetVT needs to run to completion. *)
From Coq Require Import ZArith List Bool Lia.
From Verif Require Import PoolSpec.
From Verif Require Import Heap HeapSpec HeapRead HeapDec HeapOwnSpec HeapOwnFacts HeapSim HeapSimRun.
From Verif Require Import Base BaseFacts Schema Value Helpers Unmarshal Clone Pool WireSpec Typing RecordSpec MsgSpec DecodeSpec ContentSpec
  TargetFacts UmFacts SameFacts EqualRel RunRel RunFacts PoolFacts PoolRun WithinFacts.
Import ListNotations.
Open Scope Z_scope.

(** Upstream's results have no nil elements in lists of messages. *)
Definition up_no_nil (sc : schema) : Prop := forall m bs v, up_ext (sc_up sc) m bs = Some v -> no_nil_elements sc m v.

Section Nil.
Variable sc : schema.
Hypothesis W : wf_schema sc = true.
Hypothesis UD : up_dec_ok sc.
Hypothesis UC : up_compact sc.
Hypothesis UN : up_no_nil sc.
Notation rv := (rv sc text (keeps sc)). Notation rs := (rs sc text (keeps sc)). Notation rf := (rf sc text (keeps sc)). Notation rm := (rm sc text (keeps sc)).
Notation nn := (no_nil_elements sc).
Notation local := (local sc).

(** One struct member. *)
Definition nf (f : fdesc) (v : val) : Prop :=
  (forall p k m' l, f_ty f = TField (LRepeated p) k -> sub_of k = Some m' -> md_pool (md_of sc m') = false -> v = VList l -> ~ In VNil l) /\
  (forall k x m', holds f v k x -> sub_of k = Some m' -> nn m' x).
Lemma nn_nil m : nn m VNil.
Proof. intros m1 s u h f p k m' l H. inversion H. Qed.
Lemma nn_foreign m v : md_foreign (md_of sc m) = true -> nn m v.
Proof. intros F m1 s u h f p k m' l H F1. inversion H; subst; congruence. Qed.
Lemma nn_iff m s u h : local m -> (nn m (VMsg s u h) <-> forall f, In f (md_fields (md_of sc m)) -> nf f (slot s (f_slot f))).
Proof.
  intros Lm. split.
  - intros N f Hf. split.
    + intros p k m' l T S P E. eapply (N m s u h f); eauto. apply in_self.
    + intros k x m' H S m1 s1 u1 h1 f1 p k1 m2 l Hw. apply (N m1 s1 u1 h1 f1 p k1 m2 l). eapply in_sub; eauto.
  - intros N m1 s1 u1 h1 f p k m' l Hw F1 Hf T S P E. inversion Hw as [|? ? ? ? g k0 m2 x ? ? F Hg Hh Sk Hw']; subst.
    + destruct (N f Hf) as [A _]. eauto.
    + destruct (N g Hg) as [_ B]. eapply (B k0 x m2 Hh Sk m1 s1); eauto.
Qed.
Lemma nn_slot m f s u h : local m -> In f (md_fields (md_of sc m)) -> nn m (VMsg s u h) -> nf f (slot s (f_slot f)).
Proof. intros Lm Hf N. apply (proj1 (nn_iff m s u h Lm) N f Hf). Qed.
Lemma nn_any m s u h u' h' : local m -> nn m (VMsg s u h) -> nn m (VMsg s u' h').
Proof. intros Lm N. apply nn_iff; [exact Lm|]. exact (proj1 (nn_iff m s u h Lm) N). Qed.
Lemma nn_set m f s u h x : local m -> In f (md_fields (md_of sc m)) -> length s = md_nslots (md_of sc m) -> nn m (VMsg s u h) -> nf f x ->
  (is_oneof f = true -> exists y, x = VOneof (f_num f) y) -> nn m (VMsg (list_set s (f_slot f) x) u h).
Proof.
  intros Lm Hf Ls N X O. apply nn_iff; [exact Lm|]. intros g Hg. pose proof (wf_slot sc m f W Hf) as LT.
  destruct (Nat.eq_dec (f_slot f) (f_slot g)) as [E|E]; [|rewrite slot_set_neq by assumption; eapply nn_slot; eauto].
  rewrite <- E. rewrite slot_set_eq by congruence. destruct (Z.eq_dec (f_num f) (f_num g)) as [En|En].
  { assert (g = f) as -> by (eapply wf_num_inj; eauto). exact X. }
  destruct (wf_compat sc m f g W Hf Hg) as [_ C]; [congruence|]. destruct (C E) as [Of Og]. destruct (O Of) as (y & ->).
  unfold is_oneof in Og. destruct (f_ty g) as [[] k|] eqn:Tg; try discriminate. split; [intros; discriminate|].
  intros k0 x0 m' H. inversion H as [? ? ? ? ? T0|? ? ? ? ? ? T0|? ? ? ? T0 L|? ? ? T0]; subst; [|congruence]. rewrite Tg in T0. injection T0; intros; subst. destruct L; discriminate.
Qed.
(** Members without messages. *)
Lemma nf_leaf f lbl k v : f_ty f = TField lbl k -> sub_of k = None -> nf f v.
Proof.
  intros T S. split; [intros p k0 m' l T0 S0; rewrite T in T0; injection T0 as _ <-; congruence|].
  intros k0 x m' H S0. inversion H as [? ? ? ? ? T0|? ? ? ? ? ? T0|? ? ? ? T0|? ? ? T0]; subst; rewrite T in T0; try discriminate; injection T0; intros; subst; congruence.
Qed.
Lemma nf_nil f : nf f VNil.
Proof. split; [intros; discriminate|]. intros k x m' H. inversion H; subst; congruence. Qed.
Lemma nf_empty f p k : f_ty f = TField (LRepeated p) k -> nf f (VList []).
Proof. intros T. split; [intros p0 k0 m' l _ _ _ [= <-] []|]. intros k0 x m' H _. inversion H as [? ? ? ? ? T0 Hin|? ? ? ? ? ? T0|? ? ? ? T0 L|? ? ? T0]; subst; [destruct Hin|]. rewrite T in T0. injection T0; intros; subst. destruct L; discriminate. Qed.
Lemma nf_sub f lbl m' x : f_ty f = TField lbl (KMessage m') -> lbl = LOptional \/ lbl = LRequired -> nn m' x -> nf f x.
Proof.
  intros T L N. split; [intros p k m2 l T0; rewrite T in T0; injection T0; intros; subst; destruct L; discriminate|].
  intros k y m2 H S. inversion H as [? ? ? ? ? T0|? ? ? ? ? ? T0|? ? ? ? T0|? ? ? T0]; subst; rewrite T in T0; try discriminate; injection T0; intros; subst; try (destruct L; discriminate).
  injection S as <-. exact N.
Qed.
Lemma nf_last f p m' v x : f_ty f = TField (LRepeated p) (KMessage m') -> nf f v -> (v = VNil \/ exists l, v = VList l) -> x <> VNil -> nn m' x -> nf f (VList (vlist v ++ [x])).
Proof.
  intros T [N1 N2] Sh Nx N. split.
  - intros p0 k m2 l T0 S P [= <-] Hin. apply in_app_or in Hin as [Hin|[Hin|[]]]; [|congruence]. destruct Sh as [->|[l ->]]; [destruct Hin|]. eapply N1; eauto.
  - intros k y m2 H S. inversion H as [? ? ? ? ? T0 Hin|? ? ? ? ? ? T0|? ? ? ? T0 L|? ? ? T0]; subst; rewrite T in T0; [|injection T0; intros; subst; destruct L; discriminate].
    injection T0; intros; subst. injection S as <-. apply in_app_or in Hin as [Hin|[<-|[]]]; [|exact N]. destruct Sh as [->|[l ->]]; [destruct Hin|]. eapply N2; [eapply holds_list; eauto|reflexivity].
Qed.
Lemma nf_member f m' x : f_ty f = TField LOneof (KMessage m') -> nn m' x -> nf f (VOneof (f_num f) x).
Proof.
  intros T N. split; [intros; discriminate|]. intros k y m2 H S. inversion H as [? ? ? ? ? T0|? ? ? ? ? ? T0|? ? ? ? T0 L|? ? ? T0]; subst; rewrite T in T0; [injection T0; intros; subst; destruct L; discriminate|].
  injection T0 as <-. injection S as <-. exact N.
Qed.
Lemma map_set_in l k v e : In e (map_set l k v) -> In e l \/ snd e = v.
Proof.
  induction l as [|[a x] l IH]; cbn [map_set]; [intros [<-|[]]; now right|]. destruct (key_eqb k a); intros [<-|H]; cbn [In]; auto. destruct (IH H); auto.
Qed.
Lemma nf_mapset f kk vk v key x : f_ty f = TMap kk vk -> nf f v -> (v = VNil \/ exists l, v = VMap l) -> (forall m', sub_of vk = Some m' -> nn m' x) -> nf f (VMap (map_set (vmap v) key x)).
Proof.
  intros T [N1 N2] Sh N. split; [intros; discriminate|].
  intros k y m2 H S. inversion H as [? ? ? ? ? T0 Hin|? ? ? ? ? ? T0 Hin|? ? ? ? T0 L|? ? ? T0]; subst; rewrite T in T0; try discriminate.
  injection T0; intros; subst. apply map_set_in in Hin as [Hin|E]; [|cbn in E; subst; auto]. destruct Sh as [->|[l ->]]; [destruct Hin|]. eapply N2; [eapply holds_map; eauto|exact S].
Qed.
Lemma nf_map0 f kk vk v : f_ty f = TMap kk vk -> nf f v -> (v = VNil \/ exists l, v = VMap l) -> nf f (VMap (vmap v)).
Proof.
  intros T N [->|[l ->]]; [|exact N]. split; [intros; discriminate|]. intros k y m2 H S. inversion H as [? ? ? ? ? T0 Hin|? ? ? ? ? ? T0 Hin|? ? ? ? T0 L|? ? ? T0]; subst; [destruct Hin|rewrite T in T0; discriminate].
Qed.
Lemma nn_new m : nn m (new_msg (md_of sc m)).
Proof.
  destruct (md_foreign (md_of sc m)) eqn:F; [now apply nn_foreign|]. apply nn_iff; [exact F|]. intros f Hf.
  rewrite (slot_zero sc m f W Hf). pose proof (wf_ty sc m f W Hf) as WT. split.
  - intros p k m' l T. rewrite T. discriminate.
  - intros k x m' H _. exfalso. inversion H as [? ? ? ? ? T Hx E|? ? ? ? ? ? T Hx E|? ? ? ? T Hl Hx E|? ? ? T E]; subst;
      rewrite T in *; try discriminate. destruct Hl; subst; now destruct Hx.
Qed.

(** * The relation *)
Definition rn (m : nat) (a b : val) : Prop := rs m a b /\ nn m b.
Lemma rel_nil : rel_ok sc true local rn rn.
Proof.
  pose proof (rel_run sc W UD UC) as OK.
  assert (forall m f ss u h ss' h', at_field sc local rn m f ss u h ss' h' -> at_field sc local rs m f ss u h ss' h' /\
    local m /\ In f (md_fields (md_of sc m)) /\ length ss' = md_nslots (md_of sc m) /\ nn m (VMsg ss' u h') /\ nf f (slot ss' (f_slot f)) /\ target sc m (VMsg ss' u h')) as At.
  { intros m f ss u h ss' h' (Lm & Hf & [R N] & T). split; [repeat (split; auto)|]. split; [exact Lm|]. split; [exact Hf|].
    split; [destruct T as [T _]; inversion T; subst; assumption|]. split; [exact N|]. split; [eapply nn_slot; eauto|exact T]. }
  assert (forall m f ss u h, target sc m (VMsg ss u h) -> In f (md_fields (md_of sc m)) -> wt_field sc (md_of sc m) f (slot ss (f_slot f))) as Wf.
  { intros m f ss u h [T _] Hf. inversion T; subst; auto. }
  constructor.
  - (* r_loc *) intros m F; exact F.
  - split; [apply rs_nil|apply nn_nil].
  - split; [now apply new_rs|apply nn_new].
  - auto.
  - (* r_wt *) intros m a b T [R _]. apply (r_wt _ _ _ _ _ OK m a b T R).
  - (* r_dec *) intros m bs v F E. split; [now apply (r_dec _ _ _ _ _ OK m bs v)|now apply nn_foreign].
  - (* r_ext *) intros m bs v F E. split; [now apply (r_ext _ _ _ _ _ OK m bs v)|]. eapply UN; eauto.
  - (* r_shape *) intros m a b Lm T [R _]. exact (r_shape _ _ _ _ _ OK m a b Lm T R).
  - (* r_hid *) intros Ht m ss u h b i Lm [R _] N. exact (r_hid _ _ _ _ _ OK Ht m ss u h b i Lm R N).
  - (* r_unk *) intros m ss u h ss' h' bs Lm [R N]. split; [now apply (r_unk _ _ _ _ _ OK)|]. eapply nn_any; eauto.
  - (* r_store *) intros m f ss u h ss' h' lbl k x A Ty L N. destruct (At _ _ _ _ _ _ _ A) as (A' & Lm & Hf & Ls & Nn & Nf & T).
    pose proof (r_store _ _ _ _ _ OK m f ss u h ss' h' lbl k x A' Ty L N) as X. destruct (store f lbl k x (VMsg ss u h)), (store f lbl k x (VMsg ss' u h')) eqn:E; auto.
    split; [exact X|]. pose proof (leaf_none k x L) as Sk. unfold store in E.
    assert (forall y, (is_oneof f = true -> exists z, y = VOneof (f_num f) z) -> set_slot (VMsg ss' u h') (f_slot f) y = Some v0 -> nn m v0) as Q.
    { intros y Ho Es. cbn [set_slot] in Es. injection Es as <-. apply nn_set; auto. eapply nf_leaf; eauto. }
    unfold is_oneof in Q. rewrite Ty in Q. destruct lbl; try (eapply Q; [|exact E]; discriminate).
    eapply Q; [|exact E]. eauto.
  - (* r_list *) intros m f ss u h ss' h' p k A. destruct (At _ _ _ _ _ _ _ A) as (A' & _). now apply (r_list _ _ _ _ _ OK m f ss u h ss' h').
  - (* r_bytes *) intros m f ss u h ss' h' lbl A. destruct (At _ _ _ _ _ _ _ A) as (A' & _). now apply (r_bytes _ _ _ _ _ OK m f ss u h ss' h').
  - (* r_empty *) intros m f ss u h ss' h' p k A Ty X. destruct (At _ _ _ _ _ _ _ A) as (A' & Lm & Hf & Ls & Nn & Nf & T). split; [now apply (r_empty _ _ _ _ _ OK m f ss u h ss' h' p k)|].
    apply nn_set; auto; [eapply nf_empty; eauto|]. unfold is_oneof. now rewrite Ty.
  - (* e_empty *) intros m f ss u h ss' h' p k A Ty X. destruct (At _ _ _ _ _ _ _ A) as (A' & Lm & Hf & Ls & Nn & Nf & T). split; [now apply (e_empty _ _ _ _ _ OK m f ss u h ss' h' p k)|exact Nn].
  - (* r_map *) intros m f ss u h ss' h' kk vk A. destruct (At _ _ _ _ _ _ _ A) as (A' & _). now apply (r_map _ _ _ _ _ OK m f ss u h ss' h').
  - (* r_map0 *) intros m f ss u h ss' h' kk vk A Ty. destruct (At _ _ _ _ _ _ _ A) as (A' & Lm & Hf & Ls & Nn & Nf & T). split; [now apply (r_map0 _ _ _ _ _ OK m f ss u h ss' h' kk vk)|].
    apply nn_set; auto; [|unfold is_oneof; now rewrite Ty]. eapply nf_map0; eauto. pose proof (Wf _ _ _ _ _ T Hf) as Wt. apply wt_field_inv in Wt. rewrite Ty in Wt. destruct Wt as [->|(l & -> & _)]; eauto.
  - (* r_mapset *) intros m f ss u h ss' h' kk vk key x y A Ty KK Lk RV. destruct (At _ _ _ _ _ _ _ A) as (A' & Lm & Hf & Ls & Nn & Nf & T). split.
    + apply (r_mapset _ _ _ _ _ OK m f ss u h ss' h' kk vk); auto. destruct RV as [RV|(m' & E & [R _])]; [now left|right; eauto].
    + apply nn_set; auto; [|unfold is_oneof; now rewrite Ty]. eapply nf_mapset; eauto.
      * pose proof (Wf _ _ _ _ _ T Hf) as Wt. apply wt_field_inv in Wt. rewrite Ty in Wt. destruct Wt as [->|(l & -> & _)]; eauto.
      * intros m' S. destruct RV as [[L _]|(m2 & E & [_ N])]; [rewrite (leaf_none vk x L) in S; discriminate|]. rewrite E in S. injection S as <-. exact N.
  - (* r_sub *) intros m f ss u h ss' h' lbl m' A Ty L. destruct (At _ _ _ _ _ _ _ A) as (A' & Lm & Hf & Ls & Nn & Nf & T).
    destruct (r_sub _ _ _ _ _ OK m f ss u h ss' h' lbl m' A' Ty L) as [R I]. split; [split; [exact R|]|exact I]. destruct (val_eq_nil (slot ss' (f_slot f))) as [->|Ne]; [apply nn_nil|].
    destruct Nf as [_ N2]. eapply N2; [eapply holds_set; eauto|reflexivity].
  - (* r_set *) intros m f ss u h ss' h' lbl m' x y A Ty L [R N]. destruct (At _ _ _ _ _ _ _ A) as (A' & Lm & Hf & Ls & Nn & Nf & T). split; [now apply (r_set _ _ _ _ _ OK m f ss u h ss' h' lbl m')|].
    apply nn_set; auto; [eapply nf_sub; eauto|]. unfold is_oneof. rewrite Ty. destruct L; subst; discriminate.
  - (* e_set *) intros m f ss u h ss' h' lbl m' x y A Ty L [R N]. destruct (At _ _ _ _ _ _ _ A) as (A' & Lm & Hf & Ls & Nn & Nf & T). split; [now apply (r_set _ _ _ _ _ OK m f ss u h ss' h' lbl m')|].
    apply nn_set; auto; [eapply nf_sub; eauto|]. unfold is_oneof. rewrite Ty. destruct L; subst; discriminate.
  - (* r_grow *) intros m f ss u h ss' h' p m' tx hx ty hy A Ty E1 E2. destruct (At _ _ _ _ _ _ _ A) as (A' & Lm & Hf & Ls & Nn & Nf & T).
    destruct (r_grow _ _ _ _ _ OK m f ss u h ss' h' p m' tx hx ty hy A' Ty E1 E2) as (R & G & _).
    assert (ty = new_msg (md_of sc m') /\ hy = h') as [-> ->].
    { destruct A' as (_ & _ & R' & _). inversion R' as [|? ? ? F|? ? ? F M]; subst; [unfold HeapSimRun.local in Lm; congruence|]. inversion M as [? ? ? ? ? ? L1 L2 F' Sp Nh Ty']; subst.
      unfold list_grow in E2. destruct (md_pool (md_of sc m)); [rewrite (Nh (f_slot f)) in E2|]; injection E2 as <- <-; auto. }
    assert (forall x y, y <> VNil -> rn m' x y -> rn m (VMsg (list_set ss (f_slot f) (VList (vlist (slot ss (f_slot f)) ++ [x]))) u hx) (VMsg (list_set ss' (f_slot f) (VList (vlist (slot ss' (f_slot f)) ++ [y]))) u h')) as Gr.
    { intros x y Ny [Rxy N]. split; [now apply G|]. apply nn_set; auto; [|unfold is_oneof; now rewrite Ty]. eapply nf_last; eauto.
      pose proof (Wf _ _ _ _ _ T Hf) as Wt. apply wt_field_inv in Wt. rewrite Ty in Wt. destruct Wt as [->|(l & -> & _)]; eauto. }
    split; [split; [exact R|apply nn_new]|]. auto.
  - (* r_oneof *) intros m f ss u h ss' h' m' A Ty. destruct (At _ _ _ _ _ _ _ A) as (A' & Lm & Hf & Ls & Nn & Nf & T).
    destruct (r_oneof _ _ _ _ _ OK m f ss u h ss' h' m' A' Ty) as [X|(n & x & y & X & Y & R)]; [now left|right]. exists n, x, y. split; [exact X|]. split; [exact Y|].
    intros ->. split; [now apply R|]. rewrite Y in Nf. destruct Nf as [_ N2]. eapply N2; [eapply holds_member; eauto|reflexivity].
  - (* r_member *) intros m f ss u h ss' h' m' x y A Ty [R N]. destruct (At _ _ _ _ _ _ _ A) as (A' & Lm & Hf & Ls & Nn & Nf & T). split; [now apply (r_member _ _ _ _ _ OK m f ss u h ss' h' m')|].
    apply nn_set; auto; [eapply nf_member; eauto|eauto].
  - (* e_member *) intros m f ss u h ss' h' m' x y A Ty [R N]. destruct (At _ _ _ _ _ _ _ A) as (A' & Lm & Hf & Ls & Nn & Nf & T). split; [now apply (r_member _ _ _ _ _ OK m f ss u h ss' h' m')|].
    apply nn_set; auto; [eapply nf_member; eauto|eauto].
Qed.

(** * From the plain message to the one in memory *)
Lemma f2_in {A B} (P : A -> B -> Prop) l l' x : Forall2 P l l' -> In x l -> exists y, In y l' /\ P x y.
Proof. intros F. induction F as [|a b l l' R F IH]; intros []; [subst; exists b; split; [now left|exact R]|]. destruct (IH H) as (y & Hy & Ry). exists y. split; [now right|exact Ry]. Qed.
Lemma holds_rf m f a b k x m' : rf m f a b -> holds f a k x -> sub_of k = Some m' -> exists y, holds f b k y /\ rs m' x y.
Proof.
  intros R H S. destruct H as [f p k l x T Hx|f kk k l y x T Hx|f l k x T L Nx|f k x T].
  - destruct (rf_list_inv sc m f p k _ _ T R) as [_ F]. destruct (f2_in _ _ _ x F Hx) as (y & Hy & Ry). exists y. split; [|eapply rv_rs; eauto].
    assert (b = VList (vlist b)) as ->; [|eapply holds_list; eauto]. 
    inversion R as [? ? ? ? ? T0 X|? ? ? ? T0 L|? ? ? T0 L K|? ? ? ? ? ? T0 L K X|? ? ? ? ? ? T0 L K1 K2 Na Nb X|? ? ? ? ? ? T0 Sa Sb X|? ? ? ? ? ? T0 Sa Sb X|? ? ? T0|? ? ? ? ? ? T0 Nn|? ? ? ? ? T0 X]; subst; rewrite T in T0; try discriminate; try (injection T0; intros; subst; destruct L; discriminate).
    destruct Sb as [->|[l' ->]]; [destruct Hy|reflexivity].
  - pose proof (rf_vmap sc text (keeps sc) m f kk k _ _ T R) as F. destruct (f2_in _ _ _ (y, x) F Hx) as ((y', x') & Hy & _ & Ry). exists x'. split; [|eapply rv_rs; eauto].
    assert (b = VMap (vmap b)) as ->; [|eapply holds_map; eauto].
    inversion R as [? ? ? ? ? T0 X|? ? ? ? T0 L|? ? ? T0 L K|? ? ? ? ? ? T0 L K X|? ? ? ? ? ? T0 L K1 K2 Na Nb X|? ? ? ? ? ? T0 Sa Sb X|? ? ? ? ? ? T0 Sa Sb X|? ? ? T0|? ? ? ? ? ? T0 Nn|? ? ? ? ? T0 X]; subst; rewrite T in T0; try discriminate.
    destruct Sb as [->|[l' ->]]; [destruct Hy|reflexivity].
  - pose proof (rf_sub sc text (keeps sc) m f l k m' _ _ T L S R) as Q. exists b. split; [|exact Q]. eapply holds_set; eauto. eapply rs_vnonnil; eauto.
  - inversion R as [? ? ? ? ? T0 X|? ? ? ? T0 L|? ? ? T0 L K|? ? ? ? ? ? T0 L K X|? ? ? ? ? ? T0 L K1 K2 Na Nb X|? ? ? ? ? ? T0 Sa Sb X|? ? ? ? ? ? T0 Sa Sb X|? ? ? T0|? ? ? ? ? ? T0 Nn|? ? ? ? ? T0 X]; subst; rewrite T in T0; try discriminate; try (injection T0; intros; subst; destruct L; discriminate).
    + congruence.
    + injection T0 as <-. exists y. split; [eapply holds_member; eauto|eapply rv_rs; eauto].
Qed.
Lemma within_rs m a m1 x : within sc m a m1 x -> forall b, rs m a b -> exists y, within sc m b m1 y /\ rs m1 x y.
Proof.
  induction 1 as [m v|m s u h f k m1 x m' y F Hf Hh S Hw IH]; intros b R; [exists b; split; [apply in_self|exact R]|].
  inversion R as [|? ? ? F'|? ? ? F' M]; subst; [congruence|]. inversion M as [? ? ? ? s' h' L1 L2 RF Sp Nh Ty]; subst.
  destruct (holds_rf m f _ _ k x m1 (RF f Hf) Hh S) as (x' & Hh' & Rx). destruct (IH x' Rx) as (y' & Hw' & Ry). exists y'. split; [|exact Ry]. eapply in_sub; eauto.
Qed.
Lemma rs_nn m a b : rs m a b -> nn m b -> nn m a.
Proof.
  intros R N m1 s u h f p k m' l Hw F1 Hf T S P E Hin. destruct (within_rs _ _ _ _ Hw b R) as (y & Hw' & Ry).
  inversion Ry as [|? ? ? F'|? ? ? F' M]; subst; [congruence|]. inversion M as [? ? ? ? s' h' L1 L2 RF Sp Nh Ty]; subst.
  pose proof (RF f Hf) as Q. rewrite E in Q. destruct (rf_list_inv sc m1 f p k _ _ T Q) as [_ F]. destruct (f2_in _ _ _ VNil F Hin) as (z & Hz & Rz).
  apply (rv_rs sc k m') in Rz; auto. assert (z = VNil) as -> by (now apply (rs_nil_iff sc text (keeps sc) m' VNil z Rz)).
  destruct (holds_rf m1 f _ _ k VNil m' Q (holds_list _ _ _ _ _ T Hin) S) as (w & Hwd & _). remember (slot s' (f_slot f)) as b0 eqn:Eb. inversion Hwd as [? ? ? l' ? T0 Hw0|? ? ? ? ? ? T0|? ? ? ? T0 L|? ? ? T0]; subst; rewrite T in T0; try discriminate.
  - rewrite <- H0 in Hz. cbn [vlist] in Hz. eapply (N m1 s' u h' f p k m' l'); eauto.
  - injection T0; intros; subst. destruct L; discriminate.
Qed.
End Nil.
