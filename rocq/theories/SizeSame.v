(** Messages with the same content have encodings of the same length. *)
From Coq Require Import ZArith List Bool Lia Permutation.
From Verif Require Import Base BaseFacts Schema Value WireSpec Typing RecordSpec MsgSpec DecodeSpec ContentSpec EqualSpec
  OrderFacts SimFacts MarshalFacts TargetFacts RoundTrip SameFacts EqualRel EqualFacts EqualSame.
Import ListNotations.
Open Scope Z_scope.

(** What upstream guarantees about encodings of messages it calls equal. *)
Record up_len_ok (sc : schema) : Prop := {
  up_eq_len : forall m x y, md_foreign (md_of sc m) = true -> up_eq (sc_up sc) m x y = true ->
    zlen (up_enc (sc_up sc) m x) = zlen (up_enc (sc_up sc) m y);
  up_new_ok : forall m, md_foreign (md_of sc m) = true -> up_enc (sc_up sc) m (new_msg (md_of sc m)) = [] }.

Lemma zlen_ld_eq p q : zlen p = zlen q -> zlen (ld p) = zlen (ld q).
Proof. intros H. unfold ld. rewrite !zlen_app, H. reflexivity. Qed.
Lemma zlen_concat_eq {A B} (e : A -> list Z) (e' : B -> list Z) l l' : Forall2 (fun x y => zlen (e x) = zlen (e' y)) l l' ->
  zlen (concat (map e l)) = zlen (concat (map e' l')).
Proof. induction 1; cbn; [reflexivity|]. rewrite !zlen_app. lia. Qed.
Lemma Forall2_in_both {A B} (R : A -> B -> Prop) l l' : Forall2 R l l' -> Forall2 (fun x y => In x l /\ In y l' /\ R x y) l l'.
Proof.
  induction 1 as [|x y l l' H F IH]; constructor; [cbn; auto|].
  refine (RoundTrip.Forall2_imp _ _ _ _ _ IH). cbn. tauto.
Qed.

Section Len.
Variable sc : schema.
Variable ord : nat -> list fdesc.
Hypothesis W : wf_schema sc = true.
Hypothesis UE : up_enc_ok sc.
Hypothesis UL : up_len_ok sc.
Hypothesis OP : forall m, Permutation (ord m) (md_fields (md_of sc m)).
Notation enc n := (enc_msg sc ord n).
Definition close (k : kind) (x y : Z) : Prop := go_equal k x y \/ x = y.
Definition pclose (m : nat) (x y : val) : Prop := up_eq (sc_up sc) m x y = true \/ x = y.
Notation sv := (same_value sc close close pclose). Notation sf := (same_field sc close close pclose). Notation sm := (same_msg sc close close pclose).
Notation wte := (wt_elem sc). Notation wtm := (wt_msg sc).

Lemma close_eq k x y : close k x y -> x = y \/ k = KDouble \/ k = KFloat.
Proof. intros [(_ & _ & [H|[H _]])|H]; auto. destruct k; auto; destruct H. Qed.
Lemma close_zero k x y : close k x y -> zero_num k x = zero_num k y.
Proof.
  intros [(_ & _ & [->|[H H']])| ->]; try reflexivity. destruct k; try destruct H; subst; try destruct H'; subst; reflexivity.
Qed.

Lemma enc_nil n m : enc n m VNil = [].
Proof. destruct n; reflexivity. Qed.
Lemma enc_new n m : enc n m (new_msg (md_of sc m)) = [].
Proof.
  destruct n; [reflexivity|]. cbn [enc_msg enc_body new_msg].
  replace (if md_keep (md_of sc m) then [] else []) with (@nil Z) by (destruct (md_keep (md_of sc m)); reflexivity). rewrite app_nil_r.
  assert (forall f, In f (ord m) -> enc_field sc (enc n) f (slot (zero_slots (md_of sc m)) (f_slot f)) = []) as Z0.
  { intros f Hf. apply (Permutation_in f (OP m)) in Hf. rewrite (slot_zero sc m f W Hf). pose proof (wf_ty sc m f W Hf) as WT. unfold enc_field.
    destruct (f_ty f) as [[| | |[]|] k|]; try reflexivity. cbn in WT. apply andb_true_iff in WT as [_ WT]. destruct k; try discriminate; reflexivity. }
  induction (ord m) as [|f l IH]; cbn; [reflexivity|]. rewrite Z0 by now left. apply IH. intros. apply Z0. now right.
Qed.
Lemma sub_fuel m a n : md_foreign (md_of sc m) = false -> (vdepth a < n)%nat ->
  exists n2, (vdepth (or_empty sc m a) < n2)%nat /\ enc_sub sc (enc n) m a = enc n2 m (or_empty sc m a).
Proof.
  intros F D. unfold enc_sub. rewrite F. destruct (is_nil a) eqn:N.
  - destruct a; try discriminate. exists 2%nat. cbn [or_empty]. split; [pose proof (new_depth (md_of sc m)); lia|]. now rewrite enc_nil, enc_new.
  - rewrite or_empty_id by (intros ->; discriminate). eauto.
Qed.
Lemma sub_up m a n : md_foreign (md_of sc m) = true -> enc_sub sc (enc n) m a = up_enc (sc_up sc) m (or_empty sc m a).
Proof.
  intros F. unfold enc_sub. rewrite F. destruct a; try reflexivity. cbn [or_empty]. now rewrite (up_new_ok sc UL), (up_nil_ok sc UE).
Qed.
Lemma tagged_len num k a b n n' : zlen (enc_value sc (enc n) k a) = zlen (enc_value sc (enc n') k b) ->
  zlen (enc_tagged sc (enc n) num k a) = zlen (enc_tagged sc (enc n') num k b).
Proof. intros H. destruct k; cbn [enc_tagged]; rewrite ?zlen_app; rewrite ?H; try reflexivity. cbn [enc_value] in H. lia. Qed.

Fixpoint len_v k a b (H : sv k a b) {struct H} : wte k a -> wte k b -> forall n n', (vdepth a < n)%nat -> (vdepth b < n')%nat ->
  zlen (enc_value sc (enc n) k a) = zlen (enc_value sc (enc n') k b)
with len_f f a b (H : sf f a b) {struct H} : forall m, In f (md_fields (md_of sc m)) -> wt_field sc (md_of sc m) f a -> wt_field sc (md_of sc m) f b ->
  forall n n', (vdepth a < n)%nat -> (vdepth b < n')%nat -> zlen (enc_field sc (enc n) f a) = zlen (enc_field sc (enc n') f b)
with len_m m a b (H : sm m a b) {struct H} : md_foreign (md_of sc m) = false -> wtm m a -> wtm m b ->
  forall n n', (vdepth a < n)%nat -> (vdepth b < n')%nat -> zlen (enc n m a) = zlen (enc n' m b).
Proof.
  - destruct H as [k x y N X|k a b K X|k m a b S F X|k m a b S F X]; intros Ta Tb n n' Da Db.
    + destruct (close_eq k x y X) as [->|[->| ->]]; [destruct k; try discriminate; reflexivity|reflexivity|reflexivity].
    + destruct K; subst; cbn [enc_value]; now rewrite X.
    + destruct (sub_fuel m a n F Da) as (n1 & D1 & E1). destruct (sub_fuel m b n' F Db) as (n2 & D2 & E2).
      pose proof (len_m _ _ _ X F (empty_wt sc W k m a S Ta) (empty_wt sc W k m b S Tb) n1 n2 D1 D2) as L.
      destruct k; try discriminate; injection S as ->; cbn [enc_value]; rewrite E1, E2; auto using zlen_ld_eq.
    + assert (zlen (enc_sub sc (enc n) m a) = zlen (enc_sub sc (enc n') m b)) as L.
      { rewrite !sub_up by assumption. destruct X as [X| ->]; [now apply (up_eq_len sc UL)|reflexivity]. }
      destruct k; try discriminate; injection S as ->; cbn [enc_value]; auto using zlen_ld_eq.
  - destruct H as [f k x y T N X|f k a b T N X|f l k T L|f l k a b T L Na Nb X|f p k a b T X|f kk vk a b l T Pm X|f k a b T Na Nb|f k x y T X]; intros m Hf Ta Tb n n' Da Db; unfold enc_field; rewrite T.
    + replace (default_value k (VInt x)) with (zero_num k x) by (destruct k; try discriminate; reflexivity).
      replace (default_value k (VInt y)) with (zero_num k y) by (destruct k; try discriminate; reflexivity).
      rewrite (close_zero k x y X). destruct (zero_num k y); [reflexivity|]. apply tagged_len.
      destruct (close_eq k x y X) as [->|[->| ->]]; [destruct k; try discriminate; reflexivity|reflexivity|reflexivity].
    + pose proof Ta as Ta'. pose proof Tb as Tb'. apply wt_field_inv in Ta'. apply wt_field_inv in Tb'. rewrite T in Ta', Tb'.
      pose proof (wf_ty sc m f W Hf) as WT. rewrite T in WT. cbn in WT. apply andb_true_iff in WT as [_ WT].
      assert (default_value k a = default_value k b) as ->.
      { inversion X; subst; try (destruct k; discriminate). match goal with K : k = _ \/ _, V : vbytes a = _ |- _ => destruct K; subst; cbn [default_value]; now rewrite V end. }
      destruct (default_value k b); [reflexivity|]. apply tagged_len. exact (len_v _ _ _ X Ta' Tb' n n' Da Db).
    + destruct L; subst; reflexivity.
    + assert (forall v, v <> VNil -> wt_field sc (md_of sc m) f v -> forall q, match l with LOptional | LRequired => match v with VNil => [] | VPtr x => enc_tagged sc (enc q) (f_num f) k x | _ => enc_tagged sc (enc q) (f_num f) k v end | _ => [] end = enc_tagged sc (enc q) (f_num f) k (deref v)) as SH.
      { intros v Nv _ q. destruct L; subst; destruct v; congruence || reflexivity. }
      pose proof (SH a Na Ta n) as E1. pose proof (SH b Nb Tb n') as E2.
      assert (vdepth (deref a) < n)%nat as Da' by (destruct a; cbn [deref vdepth] in *; lia).
      assert (vdepth (deref b) < n')%nat as Db' by (destruct b; cbn [deref vdepth] in *; lia).
      pose proof (tagged_len (f_num f) k _ _ n n' (len_v _ _ _ X (set_wt sc _ _ _ _ _ T L Ta Na) (set_wt sc _ _ _ _ _ T L Tb Nb) n n' Da' Db')) as Q.
      rewrite <- E1, <- E2 in Q. destruct L; subst; exact Q.
    + assert (Forall2 (fun x y => wte k x -> wte k y -> forall n n', (vdepth x < n)%nat -> (vdepth y < n')%nat -> zlen (enc_value sc (enc n) k x) = zlen (enc_value sc (enc n') k y)) (vlist a) (vlist b)) as Y.
      { clear -X len_v. induction X as [|x y l l' V X IH]; constructor; [exact (fun Tx Ty n n' Dx Dy => len_v _ _ _ V Tx Ty n n' Dx Dy)|exact IH]. }
      assert (Forall2 (fun x y => zlen (enc_value sc (enc n) k x) = zlen (enc_value sc (enc n') k y)) (vlist a) (vlist b)) as V.
      { apply Forall2_in_both in Y. refine (RoundTrip.Forall2_imp _ _ _ _ _ Y). intros x y (Hx & Hy & Q). apply Q.
        - exact (list_wt sc _ _ _ _ _ x T Ta Hx).
        - exact (list_wt sc _ _ _ _ _ y T Tb Hy).
        - destruct a; try destruct Hx. cbn [vlist] in Hx. pose proof (depth_list x l Hx). lia.
        - destruct b; try destruct Hy. cbn [vlist] in Hy. pose proof (depth_list y l Hy). lia. }
      destruct p.
      * pose proof (zlen_concat_eq _ _ _ _ V) as L. apply zlen_ld_eq in L. destruct V; [reflexivity|]. rewrite !zlen_app. now f_equal.
      * apply zlen_concat_eq. refine (RoundTrip.Forall2_imp _ _ _ _ _ V). intros. now apply tagged_len.
    + assert (Forall2 (fun e e' => (wte kk (fst e) -> wte kk (fst e') -> forall n n', (vdepth (fst e) < n)%nat -> (vdepth (fst e') < n')%nat -> zlen (enc_value sc (enc n) kk (fst e)) = zlen (enc_value sc (enc n') kk (fst e'))) /\
        (wte vk (snd e) -> wte vk (snd e') -> forall n n', (vdepth (snd e) < n)%nat -> (vdepth (snd e') < n')%nat -> zlen (enc_value sc (enc n) vk (snd e)) = zlen (enc_value sc (enc n') vk (snd e')))) l (vmap b)) as Y.
      { clear -X len_v. induction X as [|x y l l' [V1 V2] X IH]; constructor; [|exact IH].
        split; [exact (fun Tx Ty n n' Dx Dy => len_v _ _ _ V1 Tx Ty n n' Dx Dy)|exact (fun Tx Ty n n' Dx Dy => len_v _ _ _ V2 Tx Ty n n' Dx Dy)]. }
      destruct (map_wt sc _ _ _ _ _ T Ta) as [_ Ea]. destruct (map_wt sc _ _ _ _ _ T Tb) as [_ Eb].
      pose proof (wf_ty sc m f W Hf) as WT. rewrite T in WT. cbn in WT. apply andb_true_iff in WT as [WT _]. apply andb_true_iff in WT as [KK _].
      assert (forall x, wte kk x -> vdepth x = 0%nat) as K0 by (intros x Tx; inversion Tx; subst; try reflexivity; destruct kk; discriminate).
      assert (forall e, In e (vmap a) -> (vdepth (snd e) < n)%nat) as DA by (intros e He; destruct a; try destruct He; cbn [vmap] in He; pose proof (depth_map e l0 He); lia).
      assert (forall e, In e (vmap b) -> (vdepth (snd e) < n')%nat) as DB by (intros e He; destruct b; try destruct He; cbn [vmap] in He; pose proof (depth_map e l0 He); lia).
      rewrite (perm_zlen_concat _ (rev (vmap a)) l) by (rewrite <- Permutation_rev; exact Pm).
      rewrite (perm_zlen_concat _ (rev (vmap b)) (vmap b)) by (symmetry; apply Permutation_rev).
      apply zlen_concat_eq. apply Forall2_in_both in Y. refine (RoundTrip.Forall2_imp _ _ _ _ _ Y). intros e e' (He & He' & Q1 & Q2).
      apply Permutation_sym in Pm. apply (Permutation_in e Pm) in He. destruct (Ea e He) as [Te1 Te2]. destruct (Eb e' He') as [Te1' Te2'].
      unfold enc_entry. rewrite !zlen_app. f_equal. apply zlen_ld_eq. rewrite !zlen_app.
      rewrite (Q1 Te1 Te1' n n'), (Q2 Te2 Te2' n n'); auto; rewrite K0 by assumption; lia.
    + assert (forall v q, (forall x, v <> VOneof (f_num f) x) -> match v with VOneof n0 x => if n0 =? f_num f then enc_tagged sc (enc q) (f_num f) k x else [] | _ => [] end = []) as NO.
      { intros v q Nv. destruct v; try reflexivity. destruct (num =? f_num f) eqn:En; [|reflexivity]. apply Z.eqb_eq in En. subst. now destruct (Nv v). }
      rewrite (NO a n Na), (NO b n' Nb). reflexivity.
    + rewrite Z.eqb_refl. cbn [vdepth] in Da, Db.
      assert (forall z, wt_field sc (md_of sc m) f (VOneof (f_num f) z) -> wte k z) as TE.
      { intros z Tz. apply wt_field_inv in Tz. rewrite T in Tz. destruct Tz as [?|(g & kg & x' & [= En <-] & Hg & Sg & Tg & Tx)]; [discriminate|].
        assert (g = f) as -> by (eapply wf_num_inj; eauto). congruence. }
      apply tagged_len. exact (len_v _ _ _ X (TE x Ta) (TE y Tb) n n' ltac:(lia) ltac:(lia)).
  - destruct H as [m s u h s' u' h' A1 A3]; intros F Ta Tb n n' Da Db. destruct n as [|n]; [lia|]. destruct n' as [|n']; [lia|].
    inversion Ta as [? ? ? ? La Fa Ba]; subst. inversion Tb as [? ? ? ? Lb Fb Bb]; subst. cbn [enc_msg enc_body]. rewrite !zlen_app. f_equal.
    2:{ destruct (md_keep (md_of sc m)); [now rewrite A3|reflexivity]. }
    assert (forall f, In f (ord m) -> zlen (enc_field sc (enc n) f (slot s (f_slot f))) = zlen (enc_field sc (enc n') f (slot s' (f_slot f)))) as Q.
    { intros f Hf. apply (Permutation_in f (OP m)) in Hf. pose proof (depth_slot s (f_slot f) u h). pose proof (depth_slot s' (f_slot f) u' h').
      exact (len_f _ _ _ (A1 f Hf) m Hf (Fa f Hf) (Fb f Hf) n n' ltac:(lia) ltac:(lia)). }
    clear -Q. induction (ord m) as [|f l IH]; cbn; [reflexivity|]. rewrite !zlen_app, Q by now left. rewrite IH; [reflexivity|]. intros. apply Q. now right.
Qed.
End Len.
