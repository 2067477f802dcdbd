(** Two runs of UnmarshalVT on the same input, the left one on messages with spare
    capacity, from a pool, or with aliasing strings and byte slices; the right one
    on messages without any of that: how the values correspond. *)
From Coq Require Import ZArith List Bool Lia.
From Verif Require Import Base BaseFacts Schema Value Helpers Unmarshal Clone Pool WireSpec Typing MsgSpec DecodeSpec ContentSpec PoolSpec
  TargetFacts SameFacts EqualRel.
Import ListNotations.
Open Scope Z_scope.

(** Ordinary strings and byte slices. *)
Definition plain (k : kind) (a : val) : Prop :=
  (k = KString -> exists s, a = VStr s) /\ (k = KBytes -> a = VNil \/ exists s, a = VBytes s).

Section Rel.
Variable sc : schema.
(** Strings and byte slices on the left. *)
Variable okt : kind -> val -> Prop.
(** Message types that keep the empty byte slices of fields with presence. *)
Variable kept : nat -> Prop.

Inductive rv : kind -> val -> val -> Prop :=
| rv_num k z : is_num k = true -> rv k (VInt z) (VInt z)
| rv_text k a b : k = KString \/ k = KBytes -> okt k a -> plain k b -> vbytes a = vbytes b -> rv k a b
| rv_sub k m a b : sub_of k = Some m -> rs m a b -> rv k a b
with rs : nat -> val -> val -> Prop :=
| rs_nil m : rs m VNil VNil
| rs_up m a b : md_foreign (md_of sc m) = true -> wt_msg sc m a -> wt_msg sc m b -> trim a = trim b -> rs m a b
| rs_msg m a b : md_foreign (md_of sc m) = false -> rm m a b -> rs m a b
with rf : nat -> fdesc -> val -> val -> Prop :=
| rf_implicit m f k a b : f_ty f = TField LImplicit k -> rv k a b -> rf m f a b
| rf_unset m f l k : f_ty f = TField l k -> l = LOptional \/ l = LRequired -> rf m f VNil VNil
| rf_kept m f l : f_ty f = TField l KBytes -> l = LOptional \/ l = LRequired -> kept m -> rf m f (VBytes []) VNil
| rf_ptr m f l k a b : f_ty f = TField l k -> l = LOptional \/ l = LRequired -> is_num k = true \/ k = KString ->
    rv k a b -> rf m f (VPtr a) (VPtr b)
| rf_direct m f l k a b : f_ty f = TField l k -> l = LOptional \/ l = LRequired -> is_num k = false -> k <> KString ->
    a <> VNil -> b <> VNil -> rv k a b -> rf m f a b
| rf_list m f p k a b : f_ty f = TField (LRepeated p) k -> a = VNil \/ (exists l, a = VList l) -> b = VNil \/ (exists l, b = VList l) ->
    Forall2 (rv k) (vlist a) (vlist b) -> rf m f a b
| rf_map m f kk vk a b : f_ty f = TMap kk vk -> a = VNil \/ (exists l, a = VMap l) -> b = VNil \/ (exists l, b = VMap l) ->
    Forall2 (fun e e' => rv kk (fst e) (fst e') /\ rv vk (snd e) (snd e')) (vmap a) (vmap b) -> rf m f a b
| rf_none m f k : f_ty f = TField LOneof k -> rf m f VNil VNil
| rf_other m f k n x y : f_ty f = TField LOneof k -> n <> f_num f -> rf m f (VOneof n x) (VOneof n y)
| rf_member m f k x y : f_ty f = TField LOneof k -> rv k x y -> rf m f (VOneof (f_num f) x) (VOneof (f_num f) y)
with rm : nat -> val -> val -> Prop :=
| rm_msg m s u h s' h' : length s = md_nslots (md_of sc m) -> length s' = md_nslots (md_of sc m) ->
    (forall f, In f (md_fields (md_of sc m)) -> rf m f (slot s (f_slot f)) (slot s' (f_slot f))) ->
    (forall f p k m' x, In f (md_fields (md_of sc m)) -> f_ty f = TField (LRepeated p) k -> sub_of k = Some m' ->
       In x (nth (f_slot f) h []) -> x = VNil \/ rs m' x (new_msg (md_of sc m'))) ->
    (forall i, nth i h' [] = []) -> (forall i, nth i h [] <> [] -> message_list sc m i) ->
    rm m (VMsg s u h) (VMsg s' u h').

Lemma rs_nil_iff m a b : rs m a b -> (a = VNil <-> b = VNil).
Proof.
  intros H. inversion H as [|? ? ? F Ta Tb E|? ? ? F R]; subst; [tauto| |].
  - inversion Ta; inversion Tb; subst; split; discriminate.
  - inversion R; subst. split; discriminate.
Qed.

Hypothesis W : wf_schema sc = true.

(** Assignments to a struct member. *)
Lemma rm_set m s u h s' h' f x y : rm m (VMsg s u h) (VMsg s' u h') -> In f (md_fields (md_of sc m)) -> rf m f x y ->
  (is_oneof f = true -> exists a b, x = VOneof (f_num f) a /\ y = VOneof (f_num f) b) ->
  rm m (VMsg (list_set s (f_slot f) x) u h) (VMsg (list_set s' (f_slot f) y) u h').
Proof.
  intros H Hf Rf O. inversion H as [? ? ? ? ? ? L1 L2 F Sp N]; subst. pose proof (wf_slot sc m f W Hf) as LT. constructor; auto; rewrite ?list_set_length; auto.
  intros g Hg. destruct (Nat.eq_dec (f_slot f) (f_slot g)) as [E|E].
  - rewrite <- E. rewrite !slot_set_eq by congruence. destruct (Z.eq_dec (f_num f) (f_num g)) as [En|En].
    { assert (g = f) as -> by (eapply wf_num_inj; eauto). exact Rf. }
    destruct (wf_compat sc m f g W Hf Hg) as [_ C]; [congruence|]. destruct (C E) as [Of Og].
    destruct (O Of) as (a & b & -> & ->). unfold is_oneof in Og. destruct (f_ty g) as [[] k|] eqn:Tg; try discriminate.
    eapply rf_other; eauto.
  - rewrite !slot_set_neq by assumption. auto.
Qed.
Lemma rm_unk m s u h s' h' bs : rm m (VMsg s u h) (VMsg s' u h') -> rm m (VMsg s (u ++ bs) h) (VMsg s' (u ++ bs) h').
Proof. intros H. inversion H; subst. constructor; auto. Qed.
Lemma rm_vmsg m a b : rm m a b -> exists s u h s' h', a = VMsg s u h /\ b = VMsg s' u h'.
Proof. intros H. inversion H; subst. repeat eexists. Qed.

(** New messages. *)
Lemma rf_zero m f n : wf_type n (f_ty f) = true -> okt KString (VStr []) -> okt KBytes VNil -> rf m f (zero_of (f_ty f)) (zero_of (f_ty f)).
Proof.
  intros Wt OS OB. destruct (f_ty f) as [[| | |p|] k|kk vk] eqn:T; cbn [zero_of].
  - eapply rf_implicit; eauto. destruct k; cbn [classify]; try (apply rv_num; reflexivity); try discriminate Wt.
    all: try (exfalso; cbn in Wt; rewrite andb_false_r in Wt; discriminate).
    + apply rv_text; auto. split; [eauto|discriminate].
    + apply rv_text; auto. split; [discriminate|auto].
  - eapply rf_unset; eauto.
  - eapply rf_unset; eauto.
  - eapply rf_list; eauto; constructor.
  - eapply rf_none; eauto.
  - eapply rf_map; eauto; constructor.
Qed.
Lemma rm_new m : okt KString (VStr []) -> okt KBytes VNil -> rm m (new_msg (md_of sc m)) (new_msg (md_of sc m)).
Proof.
  intros OS OB. assert (length (zero_slots (md_of sc m)) = md_nslots (md_of sc m)) as L by (unfold zero_slots; now rewrite map_length, seq_length).
  constructor; auto.
  - intros f Hf. rewrite (zero_slots_of sc W m f Hf). eapply rf_zero; eauto. exact (wf_ty sc m f W Hf).
  - intros f p k m' x _ _ _ Hx. destruct (f_slot f); destruct Hx.
  - intros i. now destruct i.
  - intros [|i] N; destruct (N eq_refl).
Qed.
Lemma rs_new m : okt KString (VStr []) -> okt KBytes VNil -> rs m (new_msg (md_of sc m)) (new_msg (md_of sc m)).
Proof.
  intros OS OB. destruct (md_foreign (md_of sc m)) eqn:F; [|apply rs_msg; auto; now apply rm_new].
  apply rs_up; auto; now apply target_new.
Qed.

(** * The content *)
Hypothesis OP : forall k a, okt k a -> deref a = a.
Fixpoint rv_same (N : forall m, ~ kept m) k a b (H : rv k a b) {struct H} : same_value sc same_bits same_bits (fun _ x y => trim x = trim y) k a b
with rs_same (N : forall m, ~ kept m) k m a b (H : rs m a b) {struct H} : sub_of k = Some m -> same_value sc same_bits same_bits (fun _ x y => trim x = trim y) k a b
with rf_same (N : forall m, ~ kept m) m f a b (H : rf m f a b) {struct H} : same_field sc same_bits same_bits (fun _ x y => trim x = trim y) f a b
with rm_same (N : forall m, ~ kept m) m a b (H : rm m a b) {struct H} : same_msg sc same_bits same_bits (fun _ x y => trim x = trim y) m a b.
Proof.
  - destruct H as [k z Nk|k a b K Oa Pb E|k m a b S R].
    + apply sv_num; [exact Nk|reflexivity].
    + now apply sv_text.
    + exact (rs_same N k m a b R S).
  - destruct H as [m|m a b F Ta Tb E|m a b F R]; intros S.
    + destruct (md_foreign (md_of sc m)) eqn:F; [eapply sv_up; eauto|]. eapply sv_msg; eauto. apply new_self; auto; reflexivity.
    + eapply sv_up; eauto. inversion Ta; inversion Tb; subst; exact E.
    + eapply sv_msg; eauto. pose proof (rm_same N m a b R) as Q. inversion R; subst. exact Q.
  - destruct H as [m f k a b T X|m f l k T L|m f l T L K|m f l k a b T L K X|m f l k a b T L K1 K2 Na Nb X|m f p k a b T Sa Sb X|m f kk vk a b T Sa Sb X|m f k T|m f k n x y T Nn|m f k x y T X].
    + destruct (is_num k) eqn:Nk; [|eapply sf_implicit; eauto].
      destruct X as [k z _|k a b K Oa Pb E|k m' a b S R].
      * eapply sf_number; eauto. reflexivity.
      * destruct K; subst; discriminate.
      * destruct k; discriminate.
    + eapply sf_unset; eauto.
    + destruct (N m K).
    + eapply sf_present; eauto; discriminate || exact (rv_same N k a b X).
    + eapply sf_present; eauto. pose proof (rv_same N k a b X) as Q.
      destruct X as [k z Nk|k a b K Oa Pb E|k m' a b S R].
      * exact Q.
      * apply sv_text; [exact K|]. destruct K; subst; [congruence|]. rewrite (OP _ _ Oa).
        destruct Pb as [_ Pb]. destruct (Pb eq_refl) as [->|[z ->]]; exact E.
      * assert (deref a = a /\ deref b = b) as [-> ->]; [|exact Q].
        destruct R as [m'|m' a b F Ta Tb E|m' a b F R]; [congruence| |inversion R; subst; auto]. inversion Ta; inversion Tb; subst; auto.
    + eapply sf_list; eauto. clear Sa Sb. induction X as [|x y l l' V X IH]; constructor; [exact (rv_same N k x y V)|exact IH].
    + eapply sf_map; [exact T|apply Permutation.Permutation_refl|]. clear Sa Sb. induction X as [|x y l l' V X IH]; constructor; [|exact IH].
      destruct V as [V1 V2]. split; [exact (rv_same N kk _ _ V1)|exact (rv_same N vk _ _ V2)].
    + eapply sf_other; eauto; discriminate.
    + eapply sf_other; eauto; intros z [= E _]; congruence.
    + eapply sf_member; eauto.
  - destruct H as [m s u h s' h' L1 L2 F Sp Nh]. constructor; [|reflexivity]. intros f Hf. exact (rf_same N m f _ _ (F f Hf)).
Qed.
End Rel.
