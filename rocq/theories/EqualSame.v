(** EqualVT and content. *)
From Coq Require Import ZArith List Bool Lia Permutation.
From Verif Require Import Base BaseFacts Schema Value Helpers Unmarshal Equal WireSpec Typing RecordSpec MsgSpec DecodeSpec ContentSpec EqualSpec
  OrderFacts SimFacts MarshalFacts SameFacts EqualRel EqualFacts.
Import ListNotations.
Open Scope Z_scope.

Lemma map_perm {A B} (R : A -> B -> B -> Prop) (l l' : list (A * B)) : length l = length l' -> NoDup (map fst l) -> NoDup (map fst l') ->
  (forall e, In e l -> exists y, In (fst e, y) l' /\ R (fst e) (snd e) y) ->
  exists l0, Permutation l l0 /\ Forall2 (fun e e' => fst e = fst e' /\ R (fst e) (snd e) (snd e')) l0 l'.
Proof.
  intros L N1 N2 H. pose proof (map_back R l l' L N1 N2 H) as H'.
  assert (forall l1, incl l1 l' -> exists l0, incl l0 l /\ Forall2 (fun e e' => fst e = fst e' /\ R (fst e) (snd e) (snd e')) l0 l1) as G.
  { induction l1 as [|e l1 IH]; intros I.
    - exists []. split; [intros x []|constructor].
    - destruct IH as (l0 & I0 & F0); [intros x Hx; apply I; now right|]. destruct (H' e (I e (or_introl eq_refl))) as (x & Hx & Q).
      exists ((fst e, x) :: l0). split; [intros y [<-|Hy]; auto|]. constructor; auto. }
  destruct (G l' (incl_refl _)) as (l0 & I0 & F0). exists l0. split; [|assumption].
  assert (map fst l0 = map fst l') as E0 by (clear -F0; induction F0 as [|? ? ? ? [? _]]; cbn; congruence).
  symmetry. apply NoDup_Permutation_bis; [|apply (f_equal (@length _)) in E0; rewrite !map_length in E0; lia|assumption].
  rewrite <- E0 in N2. exact (NoDup_map_inv _ _ N2).
Qed.

Section Same.
Variable sc : schema.
Hypothesis W : wf_schema sc = true.
Hypothesis U : up_eq_ok sc.
Notation wte := (wt_elem sc). Notation wtm := (wt_msg sc).

Lemma empty_wt k m v : sub_of k = Some m -> wte k v -> wtm m (or_empty sc m v).
Proof.
  intros S T. destruct (wt_elem_sub sc k m v S T) as [->|T']; [apply (TargetFacts.target_new sc W m)|]. destruct T'. now constructor.
Qed.
Lemma set_wt md f l k v : f_ty f = TField l k -> l = LOptional \/ l = LRequired -> wt_field sc md f v -> v <> VNil -> wte k (deref v).
Proof.
  intros T L H N. apply wt_field_inv in H. rewrite T in H.
  assert (v = VNil \/ (exists x, v = VPtr x /\ (is_num k = true \/ k = KString) /\ wte k x) \/ (is_num k = false /\ k <> KString /\ wte k v)) as [->|[(x & -> & _ & Q)|(_ & _ & Q)]] by (destruct L; subst; exact H); [contradiction|exact Q|].
  destruct v; try exact Q. now apply wt_elem_notptr in Q.
Qed.
Lemma list_wt md f q k v x : f_ty f = TField (LRepeated q) k -> wt_field sc md f v -> In x (vlist v) -> wte k x.
Proof. intros T H Hx. apply wt_field_inv in H. rewrite T in H. destruct H as [->|(l & -> & H)]; [destruct Hx|auto]. Qed.
Lemma map_wt md f kk vk v : f_ty f = TMap kk vk -> wt_field sc md f v ->
  NoDup (map fst (vmap v)) /\ forall e, In e (vmap v) -> wte kk (fst e) /\ wte vk (snd e).
Proof.
  intros T H. apply wt_field_inv in H. rewrite T in H. destruct H as [->|(l & -> & H1 & H2 & H3)]; [split; [constructor|intros e []]|].
  split; [assumption|]. auto.
Qed.
Lemma msg_nonnil m v : wtm m v -> v <> VNil.
Proof. intros []. discriminate. Qed.
Lemma msg_deref m v : wtm m v -> deref v = v.
Proof. now intros []. Qed.
Lemma or_empty_id m v : v <> VNil -> or_empty sc m v = v.
Proof. destruct v; congruence || reflexivity. Qed.

(** * EqualVT implies the same content *)
Section To.
Variable o : list step -> bool.
Variable E : kind -> Z -> Z -> Prop.
Variable P : nat -> val -> val -> Prop.
Hypothesis HE : forall k x y, go_equal k x y -> E k x y.
Hypothesis HP : forall m x y, up_eq (sc_up sc) m x y = true -> P m x y.
Notation sv := (same_value sc E E P). Notation sf := (same_field sc E E P). Notation sm := (same_msg sc E E P).
Hypothesis SM : forall p m a, o p = true -> wtm m a -> md_foreign (md_of sc m) = false -> sm m a a.
Hypothesis SV : forall p k x, o p = true -> wte k x -> sv k x x.

Lemma key_self kk x : key_kind kk = true -> wte kk x -> sv kk x x.
Proof.
  intros K T. inversion T as [? z R| | | |? ? S|? ? ? S]; subst; try discriminate K; try (destruct kk; discriminate).
  - apply sv_num; [destruct kk; try discriminate; reflexivity|]. apply HE, go_equal_refl. destruct kk; cbn; auto; discriminate.
  - apply sv_text; auto.
Qed.

Fixpoint to_v p st k a b (H : eqv sc o p st k a b) {struct H} : wte k a -> wte k b -> sv k a b
with to_l p s k i l l' (H : eql sc o p s k i l l') {struct H} : (forall x, In x l -> wte k x) -> (forall x, In x l' -> wte k x) -> Forall2 (sv k) l l'
with to_f p f a b (H : eqf sc o p f a b) {struct H} : forall m, In f (md_fields (md_of sc m)) -> wt_field sc (md_of sc m) f a -> wt_field sc (md_of sc m) f b -> sf f a b
with to_o p md s a b (H : eqo sc o p md s a b) {struct H} : forall m f, md = md_of sc m -> s = f_slot f -> In f (md_fields md) -> is_oneof f = true -> wt_field sc md f a -> wt_field sc md f b -> sf f a b
with to_m p m a b (H : eqm sc o p m a b) {struct H} : md_foreign (md_of sc m) = false -> wtm m a -> wtm m b -> sm m a b.
Proof.
  - destruct H as [p st k x y N X|p st k a b K X|p st k m S|p st k m a S Eo Na|p st k m a b S F X|p st k m a b S F X]; intros Ta Tb.
    + apply sv_num; [assumption|]. apply HE. now apply num_eqb_spec.
    + now apply sv_text.
    + destruct (md_foreign (md_of sc m)) eqn:F; [eapply sv_up; eauto; apply HP, (up_eq_new sc U)|eapply sv_msg; eauto; apply (new_self sc E E P W); intros k0; apply HE, go_equal_refl, nan_zero].
    + exact (SV _ _ _ Eo Ta).
    + eapply sv_msg; eauto. exact (to_m _ _ _ _ X F (empty_wt k m a S Ta) (empty_wt k m b S Tb)).
    + eapply sv_up; eauto.
  - destruct H as [p s k i|p s k i x y l l' V L]; intros Ta Tb.
    + constructor.
    + constructor; [exact (to_v _ _ _ _ _ V (Ta x (or_introl eq_refl)) (Tb y (or_introl eq_refl)))|].
      exact (to_l _ _ _ _ _ _ L (fun z Hz => Ta z (or_intror Hz)) (fun z Hz => Tb z (or_intror Hz))).
  - destruct H as [p f k a b T X|p f l k T L S|p f l k a b T L S Na Nb X|p f l k m a b T L S F X|p f l k m a b T L S F X|p f q k a b T X|p f kk vk a b T Ln N1 N2 X]; intros m0 Hf Ta Tb.
    + assert (wte k a) as Ta' by (apply wt_field_inv in Ta; now rewrite T in Ta). assert (wte k b) as Tb' by (apply wt_field_inv in Tb; now rewrite T in Tb).
      pose proof (to_v _ _ _ _ _ X Ta' Tb') as Q. destruct (is_num k) eqn:N; [|eapply sf_implicit; eauto].
      inversion Q; subst; try (destruct k; discriminate); [eapply sf_number; eauto|]. match goal with K : _ \/ _ |- _ => destruct K; subst; discriminate end.
    + eapply sf_unset; eauto.
    + eapply sf_present; eauto. exact (to_v _ _ _ _ _ X (set_wt _ _ _ _ _ T L Ta Na) (set_wt _ _ _ _ _ T L Tb Nb)).
    + assert (a = VNil -> b = VNil) as NN by (intros ->; inversion X; subst; congruence).
      assert (b = VNil -> a = VNil) as NN' by (intros ->; inversion X; subst; congruence).
      destruct (is_nil a) eqn:Na; [destruct a; try discriminate; rewrite NN by reflexivity; eapply sf_unset; eauto|].
      assert (a <> VNil) as Na' by (intros ->; discriminate). assert (b <> VNil) as Nb' by tauto.
      pose proof (set_wt _ _ _ _ _ T L Ta Na') as Ta'. pose proof (set_wt _ _ _ _ _ T L Tb Nb') as Tb'.
      assert (forall v, v <> VNil -> wt_field sc (md_of sc m0) f v -> deref v = v) as DR.
      { intros v Nv Tv. apply wt_field_inv in Tv. rewrite T in Tv.
        assert (v = VNil \/ (exists x, v = VPtr x /\ (is_num k = true \/ k = KString) /\ wte k x) \/ (is_num k = false /\ k <> KString /\ wte k v)) as [->|[(x & -> & [Q| ->] & _)|(_ & _ & Q)]] by (destruct L; subst; exact Tv); try congruence; [destruct k; discriminate|discriminate|].
        destruct v; try reflexivity. now apply wt_elem_notptr in Q. }
      rewrite DR in Ta', Tb' by assumption. eapply sf_present; eauto. rewrite !DR by assumption. eapply sv_msg; eauto.
      rewrite !or_empty_id by assumption. destruct (wt_elem_sub sc k m a S Ta') as [?|Wa]; [contradiction|]. destruct (wt_elem_sub sc k m b S Tb') as [?|Wb]; [contradiction|].
      exact (to_m _ _ _ _ X F Wa Wb).
    + assert (forall v, wt_field sc (md_of sc m0) f v -> v = VNil \/ (exists s u h, v = VMsg s u h)) as SH.
      { intros v Tv. apply wt_field_inv in Tv. rewrite T in Tv.
        assert (v = VNil \/ (exists x, v = VPtr x /\ (is_num k = true \/ k = KString) /\ wte k x) \/ (is_num k = false /\ k <> KString /\ wte k v)) as [->|[(x & -> & [Q| ->] & _)|(_ & _ & Q)]] by (destruct L; subst; exact Tv); auto; [destruct k; discriminate|discriminate|].
        destruct (wt_elem_sub sc k m v S Q) as [->|[]]; eauto. }
      destruct (SH a Ta) as [->|(s & u & h & ->)]; destruct (SH b Tb) as [->|(s' & u' & h' & ->)].
      * eapply sf_unset; eauto.
      * rewrite (up_eq_nil_l sc U) in X. discriminate.
      * rewrite (up_eq_nil_r sc U) in X. discriminate.
      * eapply sf_present; eauto; try discriminate. eapply sv_up; eauto. 
    + eapply sf_list; eauto. exact (to_l _ _ _ _ _ _ X (fun x Hx => list_wt _ _ _ _ _ x T Ta Hx) (fun x Hx => list_wt _ _ _ _ _ x T Tb Hx)).
    + destruct (map_wt _ _ _ _ _ T Ta) as [_ Ea]. destruct (map_wt _ _ _ _ _ T Tb) as [_ Eb].
      pose proof (wf_ty sc m0 f W Hf) as WT. rewrite T in WT. cbn in WT. apply andb_true_iff in WT as [WT _]. apply andb_true_iff in WT as [KK _].
      assert (forall e, In e (vmap a) -> exists y, In (fst e, y) (vmap b) /\ sv vk (snd e) y) as Y.
      { intros e He. destruct (X e He) as (y & Hy & V). exact (ex_intro _ y (conj Hy (to_v _ _ _ _ _ V (proj2 (Ea e He)) (proj2 (Eb _ Hy))))). }
      destruct (map_perm (fun _ x y => sv vk x y) (vmap a) (vmap b) Ln N1 N2 Y) as (l0 & P0 & F0).
      eapply sf_map; [eassumption|exact P0|]. apply Permutation_sym in P0.
      assert (forall e, In e l0 -> wte kk (fst e)) as K0 by (intros e He; apply Ea, (Permutation_in e P0 He)).
      clear -F0 K0 KK HE. induction F0 as [|e e' l l' [Q1 Q2] F0 IH]; constructor; [|apply IH; intros; apply K0; now right].
      split; [|exact Q2]. rewrite <- Q1. apply key_self; [assumption|apply K0; now left].
  - destruct H as [p md s|p md s n x Eo|p md s g k x y Hg Sg Tg V]; intros m f -> Es Hf O Ta Tb.
    + unfold is_oneof in O. destruct (f_ty f) as [[]|] eqn:Tf; try discriminate. eapply sf_other; eauto; discriminate.
    + unfold is_oneof in O. destruct (f_ty f) as [[]|] eqn:Tf; try discriminate. apply wt_field_inv in Ta. rewrite Tf in Ta.
      destruct Ta as [?|(g & kg & x' & [= -> <-] & Hg & Sg & Tg & Tx)]; [discriminate|].
      destruct (Z.eq_dec (f_num g) (f_num f)) as [En|En].
      * assert (g = f) as -> by (eapply wf_num_inj; eauto). rewrite Tf in Tg. injection Tg as <-. eapply sf_member; eauto.
      * eapply sf_other; eauto; intros y [= Q _]; congruence.
    + assert (wte k x) as Tx.
      { apply wt_field_inv in Ta. unfold is_oneof in O. destruct (f_ty f) as [[]|] eqn:Tf; try discriminate.
        destruct Ta as [?|(g' & kg & x' & [= En <-] & Hg' & Sg' & Tg' & Tx)]; [discriminate|].
        assert (g = g') as <- by (eapply wf_num_inj; eauto). congruence. }
      assert (wte k y) as Ty.
      { apply wt_field_inv in Tb. unfold is_oneof in O. destruct (f_ty f) as [[]|] eqn:Tf; try discriminate.
        destruct Tb as [?|(g' & kg & x' & [= En <-] & Hg' & Sg' & Tg' & Ty)]; [discriminate|].
        assert (g = g') as <- by (eapply wf_num_inj; eauto). congruence. }
      pose proof (to_v _ _ _ _ _ V Tx Ty) as Q.
      unfold is_oneof in O. destruct (f_ty f) as [[]|] eqn:Tf; try discriminate.
      destruct (Z.eq_dec (f_num g) (f_num f)) as [En|En].
      * assert (g = f) as -> by (eapply wf_num_inj; eauto). rewrite Tf in Tg. injection Tg as <-. eapply sf_member; eauto.
      * eapply sf_other; eauto; intros z [= Q' _]; congruence.
  - destruct H as [p m|p m a Eo Na|p m s u h s' u' h' A1 A2 A3]; intros F Ta Tb.
    + now apply msg_nonnil in Ta.
    + exact (SM _ _ _ Eo Ta F).
    + constructor; [|assumption]. inversion Ta as [? ? ? ? La Fa Ba]; subst. inversion Tb as [? ? ? ? Lb Fb Bb]; subst. intros f Hf.
      destruct (is_oneof f) eqn:O.
      * exact (to_o _ _ _ _ _ (A2 f Hf O) m f eq_refl eq_refl Hf O (Fa f Hf) (Fb f Hf)).
      * exact (to_f _ _ _ _ (A1 f Hf O) m Hf (Fa f Hf) (Fb f Hf)).
Qed.
End To.

(** * The same content implies EqualVT *)
Section From.
Let never (_ : list step) : bool := false.
Notation P := (fun m x y => up_eq (sc_up sc) m x y = true).
Notation sv := (same_value sc go_equal go_equal P). Notation sf := (same_field sc go_equal go_equal P). Notation sm := (same_msg sc go_equal go_equal P).

Lemma key_eq kk x y : key_kind kk = true -> wte kk x -> wte kk y -> sv kk x y -> x = y.
Proof.
  intros K Tx Ty H. destruct (is_num kk) eqn:N.
  - destruct (wt_elem_num sc kk x N Tx) as (a & -> & _). destruct (wt_elem_num sc kk y N Ty) as (b & -> & _).
    inversion H as [? ? ? _ G|? ? ? [->| ->] V|? ? ? ? S|? ? ? ? S]; subst; try discriminate; try (destruct kk; discriminate).
    destruct G as (_ & _ & [->|[Z _]]); [reflexivity|]. destruct kk; try discriminate; destruct Z.
  - assert (kk = KString) as -> by (destruct kk; try discriminate; reflexivity).
    inversion Tx; subst; try discriminate. inversion Ty; subst; try discriminate. inversion H; subst; try discriminate. cbn in *. congruence.
Qed.
Lemma eqv_msg p st k m a b : sub_of k = Some m -> a <> VNil -> b <> VNil -> eqv sc never p st k a b ->
  (md_foreign (md_of sc m) = false /\ eqm sc never (st :: p) m a b) \/ (md_foreign (md_of sc m) = true /\ up_eq (sc_up sc) m a b = true).
Proof.
  intros S Na Nb H. inversion H as [? ? ? ? ? N|? ? ? ? ? K|? ? ? ? S1|? ? ? ? ? S1 Eo|? ? ? m' ? ? S1 F X|? ? ? m' ? ? S1 F X]; subst; try contradiction; try discriminate.
  - destruct k; discriminate.
  - destruct K; subst; discriminate.
  - assert (m' = m) by congruence. subst. rewrite !or_empty_id in X by assumption. auto.
  - assert (m' = m) by congruence. subst. rewrite !or_empty_id in X by assumption. auto.
Qed.

Lemma eql_intro p s k l : forall l' i, Forall2 (fun x y => wte k x -> wte k y -> forall q st, eqv sc never q st k x y) l l' ->
  (forall x, In x l -> wte k x) -> (forall x, In x l' -> wte k x) -> eql sc never p s k i l l'.
Proof.
  induction l as [|x l IH]; intros l' i H Ta Tb; inversion H; subst; constructor.
  - match goal with Q : wte k x -> _ |- _ => apply Q end; [apply Ta|apply Tb]; now left.
  - apply IH; [assumption|intros; apply Ta; now right|intros; apply Tb; now right].
Qed.
Lemma msg_deref' md f l k m v : f_ty f = TField l k -> l = LOptional \/ l = LRequired -> sub_of k = Some m -> wt_field sc md f v -> deref v = v.
Proof.
  intros T L S Tv. apply wt_field_inv in Tv. rewrite T in Tv.
  assert (v = VNil \/ (exists x, v = VPtr x /\ (is_num k = true \/ k = KString) /\ wte k x) \/ (is_num k = false /\ k <> KString /\ wte k v)) as [->|[(x & -> & [Q| ->] & _)|(_ & _ & Q)]] by (destruct L; subst; exact Tv); try reflexivity; [destruct k; discriminate|discriminate|].
  destruct v; try reflexivity. now apply wt_elem_notptr in Q.
Qed.

Fixpoint from_v k a b (H : sv k a b) {struct H} : wte k a -> wte k b -> forall p st, eqv sc never p st k a b
with from_f f a b (H : sf f a b) {struct H} : forall m, In f (md_fields (md_of sc m)) -> wt_field sc (md_of sc m) f a -> wt_field sc (md_of sc m) f b ->
  (is_oneof f = false -> forall p, eqf sc never p f a b) /\
  (forall k, f_ty f = TField LOneof k -> forall x y, a = VOneof (f_num f) x -> b = VOneof (f_num f) y -> wte k x -> wte k y -> forall p st, eqv sc never p st k x y)
with from_m m a b (H : sm m a b) {struct H} : md_foreign (md_of sc m) = false -> wtm m a -> wtm m b -> forall p, eqm sc never p m a b.
Proof.
  - destruct H as [k x y N X|k a b K X|k m a b S F X|k m a b S F X]; intros Ta Tb p st.
    + apply ev_num; [assumption|]. now apply num_eqb_spec.
    + now apply ev_text.
    + eapply ev_msg; eauto. exact (from_m _ _ _ X F (empty_wt k m a S Ta) (empty_wt k m b S Tb) _).
    + eapply ev_up; eauto.
  - destruct H as [f k x y T N X|f k a b T N X|f l k T L|f l k a b T L Na Nb X|f p k a b T X|f kk vk a b l T Pm X|f k a b T Na Nb|f k x y T X]; intros m0 Hf Ta Tb.
    + split; [|congruence]. intros O p. eapply ef_implicit; eauto. apply ev_num; [assumption|]. now apply num_eqb_spec.
    + split; [|congruence]. intros O p. eapply ef_implicit; eauto.
      apply wt_field_inv in Ta. apply wt_field_inv in Tb. rewrite T in Ta, Tb. exact (from_v _ _ _ X Ta Tb _ _).
    + split; [|discriminate]. intros O p. destruct (sub_of k) as [m|] eqn:S; [|eapply ef_unset; eauto].
      destruct (md_foreign (md_of sc m)) eqn:F; [eapply ef_up; eauto; apply (up_eq_nil sc U)|eapply ef_msg; eauto; apply em_nil].
    + split; [|intros k0 T0; rewrite T in T0; injection T0 as -> ->; destruct L; discriminate]. intros O p.
      pose proof (from_v _ _ _ X (set_wt _ _ _ _ _ T L Ta Na) (set_wt _ _ _ _ _ T L Tb Nb) p (SField (f_slot f))) as V. destruct (sub_of k) as [m|] eqn:S; [|eapply ef_set; eauto].
      rewrite (msg_deref' _ _ _ _ _ _ T L S Ta), (msg_deref' _ _ _ _ _ _ T L S Tb) in V.
      destruct (eqv_msg _ _ _ _ _ _ S Na Nb V) as [[F Q]|[F Q]]; [eapply ef_msg; eauto|eapply ef_up; eauto].
    + split; [|congruence]. intros O q. eapply ef_list; eauto. eapply eql_intro; [|exact (fun x Hx => list_wt _ _ _ _ _ x T Ta Hx)|exact (fun x Hx => list_wt _ _ _ _ _ x T Tb Hx)].
      clear -X from_v. induction X as [|x y l l' V X IH]; constructor; [exact (fun Tx Ty q st => from_v _ _ _ V Tx Ty q st)|exact IH].
    + split; [|congruence]. intros O p. destruct (map_wt _ _ _ _ _ T Ta) as [N1 Ea]. destruct (map_wt _ _ _ _ _ T Tb) as [N2 Eb].
      pose proof (wf_ty sc m0 f W Hf) as WT. rewrite T in WT. cbn in WT. apply andb_true_iff in WT as [WT _]. apply andb_true_iff in WT as [KK _].
      assert (Forall2 (fun e e' => sv kk (fst e) (fst e') /\ (wte vk (snd e) -> wte vk (snd e') -> forall q st, eqv sc never q st vk (snd e) (snd e'))) l (vmap b)) as Y.
      { clear -X from_v. induction X as [|x y l l' [V1 V2] X IH]; constructor; [|exact IH]. split; [exact V1|]. exact (fun Tx Ty q st => from_v _ _ _ V2 Tx Ty q st). }
      clear X. eapply ef_map; [eassumption| |assumption|assumption|].
      * rewrite (Permutation_length Pm). clear -Y. induction Y; cbn; congruence.
      * intros e He. assert (wte kk (fst e) /\ wte vk (snd e)) as [Tk Tv] by now apply Ea. apply (Permutation_in e Pm) in He. clear -Y He Tk Tv KK Eb.
        revert Eb. induction Y as [|x y l l' [V1 V2] Y IH]; [destruct He|]. intros Eb. destruct He as [->|He].
        -- destruct (Eb y (or_introl eq_refl)) as [Tk' Tv']. exists (snd y). split; [left|].
           ++ rewrite (key_eq kk (fst e) (fst y) KK Tk Tk' V1). destruct y; reflexivity.
           ++ now apply V2.
        -- destruct IH as (z & Hz & Q); [assumption|intros; apply Eb; now right|]. exists z. split; [now right|assumption].
    + split; [intros O; unfold is_oneof in O; rewrite T in O; discriminate|]. intros k' _ x y -> _. now destruct (Na x).
    + split; [intros O; unfold is_oneof in O; rewrite T in O; discriminate|]. intros k' T' x' y' [= <-] [= <-] Tx Ty p st. rewrite T in T'. injection T' as <-.
      exact (from_v _ _ _ X Tx Ty p st).
  - destruct H as [m s u h s' u' h' A1 A3]; intros F Ta Tb p.
    inversion Ta as [? ? ? ? La Fa Ba]; subst. inversion Tb as [? ? ? ? Lb Fb Bb]; subst.
    pose proof (fun f Hf => from_f _ _ _ (A1 f Hf) m Hf (Fa f Hf) (Fb f Hf)) as R. apply em_msg; [intros f Hf O; exact (proj1 (R f Hf) O p)| |assumption].
    intros f Hf O. unfold is_oneof in O. destruct (f_ty f) as [[]|] eqn:Tf; try discriminate.
    pose proof (Fa f Hf) as Ta'. pose proof (Fb f Hf) as Tb'. apply wt_field_inv in Ta'. apply wt_field_inv in Tb'. rewrite Tf in Ta', Tb'.
    assert (forall g c x, In g (md_fields (md_of sc m)) -> f_ty g = TField LOneof c -> sf g VNil (VOneof (f_num g) x) -> False) as B1.
    { intros g c x Hg Tg Q. inversion Q as [| | | | | |? ? ? ? ? ? Nb|]; subst; tys; try (match goal with L : _ = _ \/ _ |- _ => destruct L; discriminate end); try congruence; match goal with N : forall z, VOneof _ _ <> VOneof _ z |- _ => eapply N; reflexivity end. }
    assert (forall g c x, In g (md_fields (md_of sc m)) -> f_ty g = TField LOneof c -> sf g (VOneof (f_num g) x) VNil -> False) as B2.
    { intros g c x Hg Tg Q. inversion Q as [| | | | | |? ? ? ? ? ? Nb|]; subst; tys; try (match goal with L : _ = _ \/ _ |- _ => destruct L; discriminate end); try congruence; match goal with N : forall z, VOneof _ _ <> VOneof _ z |- _ => eapply N; reflexivity end. }
    assert (forall g c x n y, f_num g <> n -> In g (md_fields (md_of sc m)) -> f_ty g = TField LOneof c -> sf g (VOneof (f_num g) x) (VOneof n y) -> False) as B3.
    { intros g c x n y Ne Hg Tg Q. inversion Q as [| | | | | |? ? ? ? ? ? Nb|]; subst; tys; try (match goal with L : _ = _ \/ _ |- _ => destruct L; discriminate end); try congruence; match goal with N : forall z, VOneof _ _ <> VOneof _ z |- _ => eapply N; reflexivity end. }
    destruct Ta' as [Ea|(g & kg & x & Ea & Hg & Sg & Tg & Tx)]; destruct Tb' as [Eb|(g' & kg' & y & Eb & Hg' & Sg' & Tg' & Ty')].
    + rewrite Ea, Eb. apply eo_none.
    + exfalso. pose proof (A1 g' Hg') as Q. rewrite Sg', Ea, Eb in Q. eauto.
    + exfalso. pose proof (A1 g Hg) as Q. rewrite Sg, Ea, Eb in Q. eauto.
    + destruct (Z.eq_dec (f_num g) (f_num g')) as [En|En].
      * assert (g = g') as <- by (eapply wf_num_inj; eauto). rewrite Tg in Tg'. injection Tg' as <-.
        rewrite Ea, Eb. eapply eo_member; eauto. pose proof (proj2 (R g Hg) kg Tg x y) as Q. rewrite Sg in Q. apply Q; auto.
      * exfalso. pose proof (A1 g Hg) as Q. rewrite Sg, Ea, Eb in Q. eapply B3; eauto.
Qed.

Lemma from_any o p m a b : md_foreign (md_of sc m) = false -> wtm m a -> wtm m b -> sm m a b -> eqm sc o p m a b.
Proof. intros F Ta Tb H. apply (mono_m sc never o); [now apply from_m|]. intros q. discriminate. Qed.
End From.
End Same.

(** * Summary *)
Section Top.
Variable sc : schema.
Hypothesis W : wf_schema sc = true.
Hypothesis U : up_eq_ok sc.
Variable m : nat.
Hypothesis F : md_foreign (md_of sc m) = false.
Variable o : list step -> bool.

Lemma key_not_nan k z : key_kind k = true -> ~ nan k z.
Proof. destruct k; cbn; auto; discriminate. Qed.
Lemma self_identical v : wt_msg sc m v -> equal_or_identical sc m v v.
Proof.
  intros T. apply (refl_msg sc _ _ _ W) with (n := S (vdepth v)); auto.
  - intros m' s u h f k z _ _ _ _. auto.
  - intros m' x _ _. auto.
Qed.
Lemma self_equal v : wt_msg sc m v -> nan_free sc m v -> equal_content sc m v v.
Proof.
  intros T [N P]. apply (refl_msg sc _ _ _ W) with (n := S (vdepth v)); auto.
  - intros. apply go_equal_refl, key_not_nan. assumption.
  - intros. apply go_equal_refl, nan_zero.
  - intros m' s u h f k z A B C D. split; apply go_equal_refl; eapply N; eauto.
Qed.
End Top.

Section Top2.
Variable sc : schema.
Hypothesis W : wf_schema sc = true.
Hypothesis U : up_eq_ok sc.

Lemma elem_identical k x : wt_elem sc k x -> same_value sc (fun k x y => go_equal k x y \/ x = y) (fun k x y => go_equal k x y \/ x = y) (fun m x y => up_eq (sc_up sc) m x y = true \/ x = y) k x x.
Proof.
  intros T. destruct (is_num k) eqn:N.
  - destruct (wt_elem_num sc k x N T) as (z & -> & _). apply sv_num; auto.
  - destruct (sub_of k) as [m|] eqn:S.
    + destruct (md_foreign (md_of sc m)) eqn:F; [eapply sv_up; eauto|]. eapply sv_msg; eauto. apply (self_identical sc W m F). now apply (empty_wt sc W k).
    + apply sv_text; [|reflexivity]. destruct k; try discriminate; auto.
Qed.
Lemma eqm_identical o p m a b : md_foreign (md_of sc m) = false -> wt_msg sc m a -> wt_msg sc m b -> eqm sc o p m a b -> equal_or_identical sc m a b.
Proof.
  intros F Ta Tb H. apply (to_m sc W U o (fun k x y => go_equal k x y \/ x = y) (fun m x y => up_eq (sc_up sc) m x y = true \/ x = y)) with (p := p); auto.
  - intros. now apply self_identical.
  - intros. now apply elem_identical.
Qed.
Lemma eqm_separate p m a b : md_foreign (md_of sc m) = false -> wt_msg sc m a -> wt_msg sc m b -> eqm sc (fun _ => false) p m a b -> equal_content sc m a b.
Proof.
  intros F Ta Tb H. apply (to_m sc W U (fun _ => false) go_equal (fun m x y => up_eq (sc_up sc) m x y = true)) with (p := p); auto; discriminate.
Qed.
Lemma identical_equal m a b : md_foreign (md_of sc m) = false -> wt_msg sc m a -> nan_free sc m a -> equal_or_identical sc m a b -> equal_content sc m a b.
Proof.
  intros F Ta N H. refine (trans_msg sc go_equal go_equal (fun k x y => go_equal k x y \/ x = y) (fun k x y => go_equal k x y \/ x = y) go_equal go_equal
    (fun m x y => up_eq (sc_up sc) m x y = true) (fun m x y => up_eq (sc_up sc) m x y = true \/ x = y) (fun m x y => up_eq (sc_up sc) m x y = true) _ _ _ m a a (self_equal sc W m F a Ta N) b H).
  - intros k x y z G [G'| ->]; [eapply go_equal_trans; eauto|exact G].
  - intros k x y z G [G'| ->]; [eapply go_equal_trans; eauto|exact G].
  - intros m' x y z G [G'| ->]; [eapply (up_eq_trans sc U); eauto|exact G].
Qed.
End Top2.
