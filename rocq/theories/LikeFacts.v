(** Messages that differ in nil versus empty slices and maps only: an auxiliary
    relation, finer than [same_msg], preserved by encoding and decoding. *)
From Coq Require Import ZArith List Bool Lia Permutation.
From Verif Require Import Base BaseFacts Schema Value WireSpec Typing RecordSpec MsgSpec DecodeSpec ContentSpec
  OrderFacts SimFacts MarshalFacts MarshalTop TargetFacts RoundTrip SameFacts EqualRel.
Import ListNotations.
Open Scope Z_scope.

Section Like.
Variable sc : schema.
(** Messages without helpers; never nil. *)
Variable P : nat -> val -> val -> Prop.

Inductive like_value : kind -> val -> val -> Prop :=
| lv_num k z : is_num k = true -> like_value k (VInt z) (VInt z)
| lv_text k a b : k = KString \/ k = KBytes -> vbytes a = vbytes b -> like_value k a b
| lv_nil k m : sub_of k = Some m -> like_value k VNil VNil
| lv_msg k m a b : sub_of k = Some m -> md_foreign (md_of sc m) = false -> like_msg m a b -> like_value k a b
| lv_up k m a b : sub_of k = Some m -> md_foreign (md_of sc m) = true -> a <> VNil -> b <> VNil -> P m a b -> like_value k a b
with like_field : fdesc -> val -> val -> Prop :=
| lf_implicit f k a b : f_ty f = TField LImplicit k -> like_value k a b -> like_field f a b
| lf_unset f l k : f_ty f = TField l k -> l = LOptional \/ l = LRequired -> like_field f VNil VNil
| lf_present f l k a b : f_ty f = TField l k -> l = LOptional \/ l = LRequired ->
    a <> VNil -> b <> VNil -> like_value k (deref a) (deref b) -> like_field f a b
| lf_list f p k a b : f_ty f = TField (LRepeated p) k -> Forall2 (like_value k) (vlist a) (vlist b) -> like_field f a b
| lf_map f kk vk a b : f_ty f = TMap kk vk -> key_kind kk = true ->
    Forall2 (fun e e' => fst e = fst e' /\ like_value kk (fst e) (fst e') /\ like_value vk (snd e) (snd e')) (vmap a) (vmap b) ->
    like_field f a b
| lf_other f k a b : f_ty f = TField LOneof k ->
    (forall x, a <> VOneof (f_num f) x) -> (forall y, b <> VOneof (f_num f) y) -> like_field f a b
| lf_member f k x y : f_ty f = TField LOneof k -> like_value k x y ->
    like_field f (VOneof (f_num f) x) (VOneof (f_num f) y)
with like_msg : nat -> val -> val -> Prop :=
| lm_msg m s u h s' u' h' :
    (forall f, In f (md_fields (md_of sc m)) -> like_field f (slot s (f_slot f)) (slot s' (f_slot f))) ->
    (md_keep (md_of sc m) = true -> u = u') ->
    like_msg m (VMsg s u h) (VMsg s' u' h').

Lemma like_nonnil m a b : like_msg m a b -> a <> VNil /\ b <> VNil.
Proof. intros H. inversion H; subst. split; discriminate. Qed.
Lemma like_nil_iff k m a b : sub_of k = Some m -> like_value k a b -> is_nil a = is_nil b.
Proof.
  intros S H. inversion H as [? ? N|? ? ? K|? ? ? |? ? ? ? ? ? L|? ? ? ? ? ? Na Nb]; subst; try reflexivity.
  - destruct K; subst; discriminate.
  - apply like_nonnil in L as [L1 L2]. destruct a; try congruence; destruct b; congruence || reflexivity.
  - destruct a; try congruence; destruct b; congruence || reflexivity.
Qed.
End Like.

(** * The same content *)
Section Same.
Variable sc : schema.
Hypothesis W : wf_schema sc = true.
Variables P Q : nat -> val -> val -> Prop.
Hypothesis PQ : forall m a b, a <> VNil -> b <> VNil -> P m a b -> Q m a b.
Hypothesis Q0 : forall m, Q m (new_msg (md_of sc m)) (new_msg (md_of sc m)).
Notation sv := (same_value sc same_bits same_bits Q). Notation sf := (same_field sc same_bits same_bits Q). Notation sm := (same_msg sc same_bits same_bits Q).

Lemma or_empty_nonnil m v : v <> VNil -> or_empty sc m v = v.
Proof. destruct v; congruence || reflexivity. Qed.

Fixpoint like_same_v k a b (H : like_value sc P k a b) {struct H} : sv k a b
with like_same_f f a b (H : like_field sc P f a b) {struct H} : sf f a b
with like_same m a b (H : like_msg sc P m a b) {struct H} : sm m a b.
Proof.
  - destruct H as [k z N|k a b K E|k m S|k m a b S F L|k m a b S F Na Nb R].
    + apply sv_num; [exact N|reflexivity].
    + now apply sv_text.
    + destruct (md_foreign (md_of sc m)) eqn:F; [eapply sv_up; eauto; apply Q0|]. eapply sv_msg; eauto.
      apply new_self; auto. reflexivity.
    + eapply sv_msg; eauto. destruct (like_nonnil sc P m a b L) as [Na Nb]. rewrite !or_empty_nonnil by assumption. exact (like_same m a b L).
    + eapply sv_up; eauto. rewrite !or_empty_nonnil by assumption. now apply PQ.
  - destruct H as [f k a b T X|f l k T L|f l k a b T L Na Nb X|f p k a b T X|f kk vk a b T KK X|f k a b T Na Nb|f k x y T X].
    + destruct (is_num k) eqn:N.
      * destruct X as [k z N'|k a b K E|k m S|k m a b S F L|k m a b S F Na Nb R]; try (destruct k; discriminate); try (destruct K; subst; discriminate).
        eapply sf_number; eauto. reflexivity.
      * eapply sf_implicit; eauto.
    + eapply sf_unset; eauto.
    + eapply sf_present; eauto.
    + eapply sf_list; eauto. induction X as [|x y l l' V X IH]; constructor; auto.
    + eapply sf_map; [exact T|apply Permutation_refl|]. induction X as [|x y l l' V X IH]; constructor; auto.
      destruct V as (_ & V1 & V2). split; auto.
    + eapply sf_other; eauto.
    + eapply sf_member; eauto.
  - destruct H as [m s u h s' u' h' F U]. constructor; auto.
Qed.
End Same.

(** * The same bytes, the same missing fields *)
Section Enc.
Variable sc : schema.
Variable ord : nat -> list fdesc.
Hypothesis OP : forall m, Permutation (ord m) (md_fields (md_of sc m)).
Variable P : nat -> val -> val -> Prop.
Hypothesis PE : forall m a b, md_foreign (md_of sc m) = true -> P m a b -> up_enc (sc_up sc) m a = up_enc (sc_up sc) m b.
Hypothesis PI : forall m a b, md_foreign (md_of sc m) = true -> P m a b -> up_init (sc_up sc) m a = up_init (sc_up sc) m b.
Notation enc n := (enc_msg sc ord n). Notation req n := (req_msg sc n).

Lemma enc_nil0 n m : enc n m VNil = [].
Proof. destruct n; reflexivity. Qed.
Lemma req_nil0 n m : req n m VNil = true.
Proof. destruct n; reflexivity. Qed.

Definition same_ev n n' k a b := enc_value sc (enc n) k a = enc_value sc (enc n') k b /\
  req_value sc (req n) k a = req_value sc (req n') k b.
Lemma same_tagged n n' num k a b : same_ev n n' k a b -> enc_tagged sc (enc n) num k a = enc_tagged sc (enc n') num k b.
Proof. intros [H _]. destruct k; cbn [enc_tagged enc_value] in *; now rewrite H. Qed.

Fixpoint like_ev k a b (H : like_value sc P k a b) {struct H} : forall n n', (vdepth a < n)%nat -> (vdepth b < n')%nat -> same_ev n n' k a b
with like_ef f a b (H : like_field sc P f a b) {struct H} : forall n n', (vdepth a < n)%nat -> (vdepth b < n')%nat ->
  enc_field sc (enc n) f a = enc_field sc (enc n') f b /\ req_field sc (req n) f a = req_field sc (req n') f b
with like_enc m a b (H : like_msg sc P m a b) {struct H} : forall n n', (vdepth a < n)%nat -> (vdepth b < n')%nat ->
  enc n m a = enc n' m b /\ req n m a = req n' m b.
Proof.
  - destruct H as [k z N|k a b K E|k m S|k m a b S F L|k m a b S F Na Nb R]; intros n n' Da Db.
    + unfold same_ev. destruct k; try discriminate; split; reflexivity.
    + unfold same_ev. destruct K; subst; cbn [enc_value req_value]; rewrite E; auto.
    + unfold same_ev. destruct k; try discriminate; cbn [enc_value req_value enc_sub]; unfold enc_sub; rewrite ?enc_nil0, ?req_nil0; auto.
    + destruct (like_enc m a b L n n' Da Db) as [X Y]. unfold same_ev.
      destruct k; try discriminate; injection S as ->; cbn [enc_value req_value]; unfold enc_sub; rewrite F, X, Y; auto.
    + unfold same_ev. destruct k; try discriminate; injection S as ->; cbn [enc_value req_value]; unfold enc_sub; rewrite F, (PE _ _ _ F R), (PI _ _ _ F R); auto.
  - destruct H as [f k a b T X|f l k T L|f l k a b T L Na Nb X|f p k a b T X|f kk vk a b T KK X|f k a b T Na Nb|f k x y T X]; intros n n' Da Db; unfold enc_field, req_field; rewrite T.
    + pose proof (like_ev k a b X n n' Da Db) as Y. rewrite (same_tagged n n' (f_num f) k a b Y). destruct Y as [_ ->].
      assert (default_value k a = default_value k b) as ->.
      { destruct X as [k z N'|k a b K E|k m S|k m a b S F L|k m a b S F Na Nb R]; try reflexivity.
        - destruct K; subst; cbn [default_value]; now rewrite E.
        - destruct (like_nonnil sc P m a b L) as [Na Nb]. destruct k; try discriminate; destruct a; try congruence; destruct b; congruence || reflexivity.
        - destruct k; try discriminate; destruct a; try congruence; destruct b; congruence || reflexivity. }
      split; [reflexivity|]. destruct (sub_of k) as [m|] eqn:S; [now rewrite (like_nil_iff sc P k m a b S X)|].
      destruct k; try discriminate; cbn [req_value]; now rewrite !orb_true_r.
    + destruct L; subst; split; reflexivity.
    + assert (vdepth (deref a) < n)%nat as Da' by (destruct a; cbn [deref vdepth] in *; lia).
      assert (vdepth (deref b) < n')%nat as Db' by (destruct b; cbn [deref vdepth] in *; lia).
      pose proof (like_ev k _ _ X n n' Da' Db') as Y. pose proof (same_tagged n n' (f_num f) k _ _ Y) as Y1. destruct Y as [_ Y2].
      assert (forall v q, v <> VNil -> match v with VNil => [] | VPtr x => enc_tagged sc (enc q) (f_num f) k x | _ => enc_tagged sc (enc q) (f_num f) k v end = enc_tagged sc (enc q) (f_num f) k (deref v)) as SH
        by (intros v q Nv; destruct v; congruence || reflexivity).
      assert (forall v q z, v <> VNil -> match v with VNil => z | VPtr x => req_value sc (req q) k x | _ => req_value sc (req q) k v end = req_value sc (req q) k (deref v)) as SR
        by (intros v q z Nv; destruct v; congruence || reflexivity).
      destruct L; subst; rewrite (SH a n Na), (SH b n' Nb), Y1; (split; [reflexivity|]).
      * rewrite (SR a n true Na), (SR b n' true Nb). exact Y2.
      * rewrite (SR a n false Na), (SR b n' false Nb). exact Y2.
    + assert (Forall2 (fun x y => forall n n', (vdepth x < n)%nat -> (vdepth y < n')%nat -> same_ev n n' k x y) (vlist a) (vlist b)) as Y.
      { clear Da Db. induction X as [|x y l l' V X IH]; constructor; [exact (like_ev k x y V)|exact IH]. }
      assert (forall x, In x (vlist a) -> (vdepth x < n)%nat) as DA by (intros x Hx; destruct a; try destruct Hx; cbn [vlist] in Hx; pose proof (vdepth_list l x Hx); lia).
      assert (forall x, In x (vlist b) -> (vdepth x < n')%nat) as DB by (intros x Hx; destruct b; try destruct Hx; cbn [vlist] in Hx; pose proof (vdepth_list l x Hx); lia).
      assert (map (enc_value sc (enc n) k) (vlist a) = map (enc_value sc (enc n') k) (vlist b) /\
        map (enc_tagged sc (enc n) (f_num f) k) (vlist a) = map (enc_tagged sc (enc n') (f_num f) k) (vlist b) /\
        forallb (req_value sc (req n) k) (vlist a) = forallb (req_value sc (req n') k) (vlist b)) as (V1 & V2 & V3).
      { clear X Da Db. induction Y as [|x y l l' V Y IH]; [auto|].
        assert (same_ev n n' k x y) as Sx by (apply V; [apply DA|apply DB]; now left).
        destruct IH as (I1 & I2 & I3); [intros; apply DA; now right|intros; apply DB; now right|].
        cbn [map forallb]. rewrite I1, I2, I3, (same_tagged n n' (f_num f) k x y Sx). destruct Sx as [-> ->]. auto. }
      split; [|exact V3]. destruct p; [|now rewrite V2].
      destruct (vlist a), (vlist b); try discriminate V1; [reflexivity|]. now rewrite V1.
    + assert (Forall2 (fun e e' => enc_value sc (enc n) kk (fst e) = enc_value sc (enc n') kk (fst e') /\
        (forall n n', (vdepth (snd e) < n)%nat -> (vdepth (snd e') < n')%nat -> same_ev n n' vk (snd e) (snd e'))) (vmap a) (vmap b)) as Y.
      { clear Da Db. induction X as [|x y l l' V X IH]; constructor; [|exact IH]. destruct V as (V0 & V1 & V2).
        split; [|exact (like_ev vk _ _ V2)]. rewrite <- V0. clear -KK. destruct kk; try discriminate; reflexivity. }
      assert (forall e, In e (vmap a) -> (vdepth (snd e) < n)%nat) as DA by (intros [e1 e2] He; destruct a; try destruct He; cbn [vmap] in He; pose proof (vdepth_map l e1 e2 He); cbn [snd]; lia).
      assert (forall e, In e (vmap b) -> (vdepth (snd e) < n')%nat) as DB by (intros [e1 e2] He; destruct b; try destruct He; cbn [vmap] in He; pose proof (vdepth_map l e1 e2 He); cbn [snd]; lia).
      assert (map (enc_entry sc (enc n) (f_num f) kk vk) (vmap a) = map (enc_entry sc (enc n') (f_num f) kk vk) (vmap b) /\
        forallb (fun e => req_value sc (req n) vk (snd e)) (vmap a) = forallb (fun e => req_value sc (req n') vk (snd e)) (vmap b)) as (V1 & V2).
      { clear X Da Db. induction Y as [|x y l l' [K V] Y IH]; [auto|].
        assert (same_ev n n' vk (snd x) (snd y)) as [Sx Sy] by (apply V; [apply DA|apply DB]; now left).
        destruct IH as (I1 & I2); [intros; apply DA; now right|intros; apply DB; now right|].
        cbn [map forallb]. unfold enc_entry at 1 3. rewrite I1, I2, K, Sx, Sy. auto. }
      split; [|exact V2]. now rewrite !map_rev, V1.
    + assert (forall v q, (forall x, v <> VOneof (f_num f) x) -> match v with VOneof n0 x => if n0 =? f_num f then enc_tagged sc (enc q) (f_num f) k x else [] | _ => [] end = []) as NO.
      { intros v q Nv. destruct v; try reflexivity. destruct (num =? f_num f) eqn:En; [|reflexivity]. apply Z.eqb_eq in En. subst. now destruct (Nv v). }
      assert (forall v q, (forall x, v <> VOneof (f_num f) x) -> match v with VOneof n0 x => if n0 =? f_num f then is_nil x || req_value sc (req q) k x else true | _ => true end = true) as NR.
      { intros v q Nv. destruct v; try reflexivity. destruct (num =? f_num f) eqn:En; [|reflexivity]. apply Z.eqb_eq in En. subst. now destruct (Nv v). }
      rewrite (NO a n Na), (NO b n' Nb), (NR a n Na), (NR b n' Nb). auto.
    + rewrite Z.eqb_refl. cbn [vdepth] in Da, Db. pose proof (like_ev k x y X n n' ltac:(lia) ltac:(lia)) as Y.
      rewrite (same_tagged n n' (f_num f) k x y Y). destruct Y as [_ Y]. split; [reflexivity|].
      destruct (sub_of k) as [m|] eqn:S; [now rewrite (like_nil_iff sc P k m x y S X), Y|].
      destruct k; try discriminate; cbn [req_value]; now rewrite !orb_true_r.
  - destruct H as [m s u h s' u' h' F U]; intros n n' Da Db. destruct n as [|n]; [lia|]. destruct n' as [|n']; [lia|].
    cbn [enc_msg req_msg enc_body req_body].
    assert (forall f, In f (md_fields (md_of sc m)) -> enc_field sc (enc n) f (slot s (f_slot f)) = enc_field sc (enc n') f (slot s' (f_slot f)) /\
      req_field sc (req n) f (slot s (f_slot f)) = req_field sc (req n') f (slot s' (f_slot f))) as Q.
    { intros f Hf. pose proof (depth_slot s (f_slot f) u h). pose proof (depth_slot s' (f_slot f) u' h').
      exact (like_ef f _ _ (F f Hf) n n' ltac:(lia) ltac:(lia)). }
    split.
    + f_equal; [|destruct (md_keep (md_of sc m)); [now rewrite U|reflexivity]]. f_equal. apply map_ext_in. intros f Hf.
      apply Q. now apply (Permutation_in f (OP m)).
    + apply eq_true_iff_eq. rewrite !forallb_forall. split; intros A f Hf; destruct (Q f Hf) as [_ E]; [rewrite <- E|rewrite E]; auto.
Qed.
End Enc.
