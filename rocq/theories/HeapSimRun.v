(** Decoding on memory against decoding on trees, with what is left in spare capacity
    and objects from pools: the relation of the runs with pools (RunRel). *)
From Coq Require Import ZArith List Bool Lia.
From Verif Require Import PoolSpec.
From Verif Require Import Heap HeapSpec HeapRead HeapDec HeapOwnSpec HeapOwnFacts HeapSim.
From Verif Require Import Base BaseFacts Schema Value Helpers Unmarshal Clone Pool WireSpec Typing RecordSpec MsgSpec DecodeSpec ContentSpec
  TargetFacts UmFacts SameFacts EqualRel RunRel RunFacts PoolFacts PoolRun.
Import ListNotations.
Open Scope Z_scope.

Section Run.
Variable sc : schema.
Hypothesis W : wf_schema sc = true.
Notation rv := (rv sc text (keeps sc)). Notation rs := (rs sc text (keeps sc)). Notation rf := (rf sc text (keeps sc)). Notation rm := (rm sc text (keeps sc)).

(** A message related to a well-formed one is well-formed. *)
Lemma text_wt k a b : k = KString \/ k = KBytes -> text k a -> plain k b -> vbytes a = vbytes b -> wt_elem sc k b -> wt_elem sc k a.
Proof.
  intros K Ta Pb E Wb. destruct Ta as [[-> [s ->]]|[-> Ta]].
  - destruct Pb as [Pb _]. destruct (Pb eq_refl) as [s' ->]. cbn in E. now subst.
  - destruct Ta as [->|[s ->]]; [apply wt_nilbytes|]. destruct Pb as [_ Pb]. destruct (Pb eq_refl) as [->|[s' ->]]; cbn in E; subst; [|exact Wb]. now apply wt_bytes.
Qed.
Lemma key_same kk a b : key_kind kk = true -> rv kk a b -> a = b.
Proof.
  intros KK R. inversion R as [? z N|? ? ? K Oa Pb E|? ? ? ? S0]; subst; [reflexivity| |destruct kk; discriminate].
  destruct Oa as [[-> [s ->]]|[-> _]]; [|discriminate]. destruct Pb as [Pb _]. destruct (Pb eq_refl) as [s' ->]. cbn in E. now subst.
Qed.
Fixpoint rv_wt k a b (H : rv k a b) {struct H} : wt_elem sc k b -> wt_elem sc k a
with rs_wt m a b (H : rs m a b) {struct H} : wt_msg sc m b -> wt_msg sc m a
with rf_wt m f a b (H : rf m f a b) {struct H} : In f (md_fields (md_of sc m)) -> is_oneof f = false -> wt_field sc (md_of sc m) f b -> wt_field sc (md_of sc m) f a
with rf_wt_member m f a b (H : rf m f a b) {struct H} : forall y k, b = VOneof (f_num f) y -> f_ty f = TField LOneof k -> wt_elem sc k y -> exists x, a = VOneof (f_num f) x /\ wt_elem sc k x
with rm_wt m a b (H : rm m a b) {struct H} : wt_msg sc m b -> wt_msg sc m a.
Proof.
  - destruct H as [k z N|k a b K Oa Pb E|k m a b S R]; intros Wb.
    + exact Wb.
    + eapply text_wt; eauto.
    + pose proof (rs_wt m a b R) as Q. pose proof (rs_nil_iff sc text (keeps sc) m a b R) as NI. clear R.
      inversion Wb as [? ? I|? B|? B| |? m' S'|? m' ? S' T]; subst; try (destruct k; discriminate); try discriminate.
      * rewrite (proj2 NI eq_refl). eapply wt_nilsub; eauto.
      * rewrite S in S'. injection S' as <-. eapply wt_sub; eauto.
  - destruct H as [m|m a b F Ta Tb E|m a b F R]; intros Wb; [exact Wb|exact Ta|]. exact (rm_wt m a b R Wb).
  - destruct H as [m f k a b T X|m f l k T L|m f l T L K|m f l k a b T L K X|m f l k a b T L K1 K2 Na Nb X|m f p k a b T Sa Sb X|m f kk vk a b T Sa Sb X|m f k T|m f k n x y T Nn|m f k x y T X]; intros Hf O Wb; apply wt_field_inv in Wb; rewrite T in Wb; unfold is_oneof in O; rewrite T in O; try discriminate.
    + eapply wt_implicit; eauto.
    + apply wt_unset. rewrite T. destruct L; subst; reflexivity.
    + eapply wt_direct; eauto; try discriminate. now apply wt_bytes.
    + eapply wt_ptr; eauto. apply (rv_wt k a b X). clear - L Wb K. destruct L; subst; (destruct Wb as [Z0|[(x & E & _ & Wb)|(N1 & N2 & Wb)]]; [discriminate|injection E as <-; exact Wb|destruct K as [K|K]; congruence]).
    + eapply wt_direct; eauto. apply (rv_wt k a b X). clear - L Wb K1 K2 Na Nb. destruct L; subst; (destruct Wb as [Z0|[(x & -> & [K|K] & Wb)|(N1 & N2 & Wb)]]; [congruence|congruence|congruence|exact Wb]).
    + destruct Sa as [->|[l ->]]; [apply wt_unset; now rewrite T|]. eapply wt_list; eauto. cbn [vlist] in X.
      assert (forall y, In y (vlist b) -> wt_elem sc k y) as WB by (destruct Wb as [->|(l' & -> & Wb)]; [intros y []|exact Wb]). clear Wb Sb.
      induction X as [|x y l l' V X IH]; intros z Hz; [destruct Hz|]. destruct Hz as [<-|Hz]; [apply (rv_wt k x y V); apply WB; now left|]. apply IH; auto. intros w Hw. apply WB. now right.
    + destruct Sa as [->|[l ->]]; [apply wt_unset; now rewrite T|]. cbn [vmap] in X.
      assert (key_kind kk = true) as KK.
      { pose proof (wf_ty sc m f W Hf) as WT. rewrite T in WT. cbn in WT. apply andb_true_iff in WT as [WT _]. now apply andb_true_iff in WT as [? _]. }
      assert ((forall e, In e (vmap b) -> wt_elem sc kk (fst e)) /\ (forall e, In e (vmap b) -> wt_elem sc vk (snd e)) /\ NoDup (map fst (vmap b))) as WB.
      { destruct Wb as [->|(l' & -> & Wb)]; [|exact Wb]. cbn. split; [intros e []|split; [intros e []|constructor]]. }
      clear Wb Sb.
      assert (map fst l = map fst (vmap b)) as EK.
      { clear - X KK W. induction X as [|x y l l' V X IH]; cbn [map]; [reflexivity|]. f_equal; [|exact IH]. destruct V as [V _]. now apply (key_same kk). }
      destruct WB as (WK & WV & ND). rewrite <- EK in ND. eapply wt_map; eauto.
      * intros e He. assert (In (fst e) (map fst l)) as I by now apply in_map. rewrite EK in I. apply in_map_iff in I as (e' & <- & He'). auto.
      * clear EK ND WK. induction X as [|x y l l' V X IH]; intros z Hz; [destruct Hz|]. destruct Hz as [<-|Hz].
        -- destruct V as [_ V]. apply (rv_wt vk _ _ V). apply WV. now left.
        -- apply IH; auto. intros w Hw. apply WV. now right.
  - destruct H as [m f k a b T X|m f l k T L|m f l T L K|m f l k a b T L K X|m f l k a b T L K1 K2 Na Nb X|m f p k a b T Sa Sb X|m f kk vk a b T Sa Sb X|m f k T|m f k n x y T Nn|m f k x y T X]; intros y0 k0 E T0 Wy; rewrite T in T0; try discriminate;
      try (injection T0; intros; subst; destruct L; discriminate).
    + injection E; intros; congruence.
    + injection E as ->. injection T0 as ->. exists x. split; [reflexivity|]. exact (rv_wt k0 x y0 X Wy).
  - destruct H as [m s u h s' h' L1 L2 F Sp Nh Ty]; intros Wb. inversion Wb as [? ? ? ? L F' B]; subst. constructor; [exact L1| |exact B].
    intros f Hf. destruct (is_oneof f) eqn:O; [|exact (rf_wt m f _ _ (F f Hf) Hf O (F' f Hf))].
    pose proof (F' f Hf) as Wf. apply wt_field_inv in Wf. unfold is_oneof in O. destruct (f_ty f) as [[] k|] eqn:T; try discriminate.
    destruct Wf as [E|(g & k' & x & E & Hg & Es & Tg & Wx)].
    + pose proof (F f Hf) as Q. rewrite E in Q.
      assert (slot s (f_slot f) = VNil) as ->.
      { clear - Q T. inversion Q as [? ? ? ? ? T0 X|? ? ? ? T0 L|? ? ? T0 L K|? ? ? ? ? ? T0 L K X|? ? ? ? ? ? T0 L K1 K2 Na Nb X|? ? ? ? ? ? T0 Sa Sb X|? ? ? ? ? ? T0 Sa Sb X|? ? ? T0|? ? ? ? ? ? T0 Nn|? ? ? ? ? T0 X]; subst; rewrite T in T0; try discriminate; try (injection T0; intros; subst; destruct L; discriminate); reflexivity. }
      apply wt_unset. now rewrite T.
    + rewrite <- Es in *. destruct (rf_wt_member m g _ _ (F g Hg) x k' E Tg Wx) as (x' & -> & Wx'). eapply wt_oneof; eauto.
Qed.

Hypothesis UD : up_dec_ok sc.
Hypothesis UC : up_compact sc.
Definition local (m : nat) : Prop := md_foreign (md_of sc m) = false.
Lemma leaf_rv k x : leaf k x -> rv k x x.
Proof.
  intros [[N [z ->]]|[[-> [q ->]]|[-> L]]]; [now apply rv_num| |].
  - apply rv_text; auto using text_str. split; [eauto|discriminate].
  - apply rv_text; auto; [right; auto|split; [discriminate|auto]].
Qed.
Lemma leaf_none k x : leaf k x -> sub_of k = None.
Proof. intros [[N _]|[[-> _]|[-> _]]]; try reflexivity. destruct k; discriminate || reflexivity. Qed.
Lemma value_rv k x y : rel_value rs k x y -> rv k x y.
Proof. intros [[L <-]|(m & E & R)]; [now apply leaf_rv|]. eapply rv_sub; eauto. Qed.
Lemma slot_kept ss i : (i < length ss)%nat -> list_set ss i (slot ss i) = ss.
Proof. intros _. apply list_set_same. Qed.
Ltac rf_cases H T := inversion H as [? ? ? ? ? T0 X|? ? ? ? T0 L|? ? ? T0 L K|? ? ? ? ? ? T0 L K X|? ? ? ? ? ? T0 L K1 K2 Na Nb X|? ? ? ? ? ? T0 Sa Sb X|? ? ? ? ? ? T0 Sa Sb X|? ? ? T0|? ? ? ? ? ? T0 Nn|? ? ? ? ? T0 X]; subst; rewrite T in T0; try discriminate; try (injection T0; intros; subst; destruct L; discriminate).
Lemma rel_run : rel_ok sc true local rs rs.
Proof.
  assert (forall m f ss u h ss' h', at_field sc local rs m f ss u h ss' h' ->
    local m /\ In f (md_fields (md_of sc m)) /\ rm m (VMsg ss u h) (VMsg ss' u h') /\ rf m f (slot ss (f_slot f)) (slot ss' (f_slot f)) /\ (f_slot f < length ss')%nat) as At.
  { intros m f ss u h ss' h' (Lm & Hf & R & T). inversion R as [|? ? ? F|? ? ? F M]; subst; [unfold local in Lm; congruence|]. inversion M as [? ? ? ? ? ? L1 L2 F' Sp Nh Ty]; subst.
    repeat (split; [auto|]). rewrite L2. now apply wf_slot. }
  assert (forall m f ss u h ss' h' x y, at_field sc local rs m f ss u h ss' h' -> rf m f x y -> is_oneof f = false ->
    rs m (VMsg (list_set ss (f_slot f) x) u h) (VMsg (list_set ss' (f_slot f) y) u h')) as Set_.
  { intros m f ss u h ss' h' x y A R O. destruct (At _ _ _ _ _ _ _ A) as (Lm & Hf & M & _ & Li). apply rs_msg; [exact Lm|]. apply rm_set; auto. congruence. }
  assert (forall m f ss u h ss' h' lbl m' x y, at_field sc local rs m f ss u h ss' h' -> f_ty f = TField lbl (KMessage m') -> lbl = LOptional \/ lbl = LRequired ->
    rs m' x y -> rs m (VMsg (list_set ss (f_slot f) x) u h) (VMsg (list_set ss' (f_slot f) y) u h')) as SetSub.
  { intros m f ss u h ss' h' lbl m' x y A T L R. apply Set_; auto; [|unfold is_oneof; rewrite T; destruct L; subst; reflexivity].
    destruct (val_eq_nil x) as [Ex|Ex].
    - assert (y = VNil) as -> by (apply (rs_nil_iff sc text (keeps sc) m' x y R); exact Ex). subst x. eapply rf_unset; eauto.
    - eapply rf_direct; eauto; [discriminate|eapply rs_vnonnil; eauto|eapply rv_sub; eauto; reflexivity]. }
  assert (forall m f ss u h ss' h' m' x y, at_field sc local rs m f ss u h ss' h' -> f_ty f = TField LOneof (KMessage m') ->
    rs m' x y -> rs m (VMsg (list_set ss (f_slot f) (VOneof (f_num f) x)) u h) (VMsg (list_set ss' (f_slot f) (VOneof (f_num f) y)) u h')) as SetMember.
  { intros m f ss u h ss' h' m' x y A T R. destruct (At _ _ _ _ _ _ _ A) as (Lm & Hf & M & _ & Li). apply rs_msg; [exact Lm|]. apply rm_set; auto; [|eauto].
    eapply rf_member; eauto. eapply rv_sub; eauto; reflexivity. }
  constructor.
  - (* r_loc *) intros m F; exact F.
  - intros m. apply rs_nil.
  - intros m. now apply new_rs.
  - auto.
  - (* r_wt *) intros m a b [Wt _] R. now apply (rs_wt m a b).
  - (* r_dec *) intros m bs v F E. pose proof (up_dec_wt sc UD m bs v F E) as [T _]. now apply rs_up.
  - (* r_ext *) intros m bs v F E. apply rs_msg; [exact F|]. pose proof (up_ext_wt sc UD m bs v E) as [T _]. pose proof (UC m bs v E) as C.
    rewrite <- C at 2. apply tidy_rm; auto. now apply compact_tidy.
  - (* r_shape *) intros m a b Lm T R. destruct (target_vmsg _ _ _ T) as (ss & u & h & ->). inversion R as [|? ? ? F|? ? ? F M]; subst; [unfold local in Lm; congruence|].
    inversion M as [? ? ? ? ? ? L1 L2 F' Sp Nh Ty]; subst. do 5 eexists. split; [reflexivity|]. split; [reflexivity|congruence].
  - (* r_hid *) intros _ m ss u h b i Lm R N. inversion R as [|? ? ? F|? ? ? F M]; subst; [unfold local in Lm; congruence|].
    inversion M as [? ? ? ? ? ? L1 L2 F' Sp Nh Ty]; subst. pose proof (Ty i N) as Q. split; [exact Q|]. intros z Hz. destruct Q as (_ & f & p & k & m' & Hf & <- & T & Sk).
    destruct (Sp f p k m' z Hf T Sk Hz) as [->|Rz]; [now left|]. inversion Rz as [|? ? ? F0 Ta|? ? ? F0 M0]; subst.
    + right. inversion Ta; subst; eauto.
    + right. inversion M0; subst; eauto.
  - (* r_unk *) intros m ss u h ss' h' bs Lm R. inversion R as [|? ? ? F|? ? ? F M]; subst; [unfold local in Lm; congruence|]. apply rs_msg; [exact F|]. now apply rm_unk.
  - (* r_store *) intros m f ss u h ss' h' lbl k x A Ty L N. destruct (At _ _ _ _ _ _ _ A) as (Lm & Hf & M & _ & Li).
    eapply store_rr; eauto; [now apply (leaf_none k x)|apply rs_msg; auto|now apply leaf_rv].
  - (* r_list *) intros m f ss u h ss' h' p k A Ty. destruct (At _ _ _ _ _ _ _ A) as (Lm & Hf & M & Rf & Li). destruct (rf_list_inv sc m f p k _ _ Ty Rf) as [Sh F]. split; [exact Sh|]. clear Sh. induction F as [|x y l l' V F IH]; cbn [length]; congruence.
  - (* r_bytes *) intros m f ss u h ss' h' lbl A Ty N1 N2. destruct (At _ _ _ _ _ _ _ A) as (Lm & Hf & M & Rf & Li).
    remember (slot ss (f_slot f)) as a. clear Heqa. rf_cases Rf Ty; try (exfalso; injection T0; intros; subst; congruence); auto.
    + injection T0; intros; subst. inversion X as [? ? N|? ? ? K Oa|? ? ? ? S0]; subst; [discriminate| |discriminate]. destruct Oa as [[? _]|[_ O]]; [discriminate|exact O].
    + right; eauto.
    + injection T0; intros; subst. destruct K; discriminate.
    + injection T0; intros; subst. inversion X as [? ? N|? ? ? K Oa|? ? ? ? S0]; subst; [discriminate| |discriminate]. destruct Oa as [[? _]|[_ O]]; [discriminate|exact O].
  - (* r_empty *) intros m f ss u h ss' h' p k A Ty X. apply Set_; auto; [|unfold is_oneof; now rewrite Ty]. eapply rf_list; eauto. constructor.
  - (* e_empty *) intros m f ss u h ss' h' p k A Ty En. destruct (At _ _ _ _ _ _ _ A) as (Lm & Hf & M & Rf & Li).
    rewrite <- (slot_kept ss' (f_slot f) Li). apply Set_; auto; [|unfold is_oneof; now rewrite Ty]. rewrite En in Rf. remember (slot ss' (f_slot f)) as b. clear Heqb.
    rf_cases Rf Ty. injection T0; intros; subst. eapply rf_list; [exact Ty|eauto|exact Sb|exact X].
  - (* r_map *) intros m f ss u h ss' h' kk vk A Ty. destruct (At _ _ _ _ _ _ _ A) as (Lm & Hf & M & Rf & Li). remember (slot ss (f_slot f)) as a. clear Heqa. rf_cases Rf Ty. exact Sa.
  - (* r_map0 *) intros m f ss u h ss' h' kk vk A Ty. destruct (At _ _ _ _ _ _ _ A) as (Lm & Hf & M & Rf & Li). apply Set_; auto; [|unfold is_oneof; now rewrite Ty].
    eapply rf_map; eauto. cbn [vmap]. eapply rf_vmap; eauto.
  - (* r_mapset *) intros m f ss u h ss' h' kk vk key x y A Ty KK Lk RV. destruct (At _ _ _ _ _ _ _ A) as (Lm & Hf & M & Rf & Li). apply Set_; auto; [|unfold is_oneof; now rewrite Ty].
    eapply rf_map; eauto. cbn [vmap]. eapply map_set_rr; eauto; [|eapply rf_vmap; eauto|now apply leaf_rv|now apply value_rv].
    intros a [[_ [s ->]]|[K _]]; [exact Logic.I|discriminate].
  - (* r_sub *) intros m f ss u h ss' h' lbl m' A Ty L. destruct (At _ _ _ _ _ _ _ A) as (Lm & Hf & M & Rf & Li).
    pose proof (rf_sub sc text (keeps sc) m f lbl (KMessage m') m' _ _ Ty L eq_refl Rf) as R. split; [exact R|]. now apply (rs_nil_iff sc text (keeps sc) m').
  - (* r_set *) exact SetSub.
  - (* e_set *) exact SetSub.
  - (* r_grow *) intros m f ss u h ss' h' p m' tx hx ty hy A T Gx Gy. destruct (At _ _ _ _ _ _ _ A) as (Lm & Hf & M & Rf & Li).
    inversion M as [? ? ? ? ? ? L1 L2 F Sp Nh Ty]; subst.
    assert (ty = new_msg (md_of sc m') /\ hy = h') as [-> ->].
    { unfold list_grow in Gy. destruct (md_pool (md_of sc m)); [rewrite (Nh (f_slot f)) in Gy|]; injection Gy as <- <-; auto. }
    assert (rs m' tx (new_msg (md_of sc m')) /\ (forall g p k m'' x, In g (md_fields (md_of sc m)) -> f_ty g = TField (LRepeated p) k -> sub_of k = Some m'' ->
       In x (nth (f_slot g) hx []) -> x = VNil \/ rs m'' x (new_msg (md_of sc m''))) /\
       (forall i, nth i hx [] <> [] -> message_list sc m i)) as (RT & HX & TX).
    { unfold list_grow in Gx. destruct (md_pool (md_of sc m)); [|injection Gx as <- <-; split; [now apply new_rs|split; [exact Sp|exact Ty]]].
      destruct (nth (f_slot f) h []) as [|x rest] eqn:Nt; injection Gx as <- <-; [split; [now apply new_rs|split; [exact Sp|exact Ty]]|].
      assert (x = VNil \/ rs m' x (new_msg (md_of sc m'))) as RX by (eapply (Sp f _ (KMessage m') m' x); eauto; rewrite Nt; now left).
      split; [|split].
      - destruct RX as [->|RX]; [now apply new_rs|]. destruct x; auto. now apply new_rs.
      - intros g p0 k m'' y Hg Tg Sg Hy. destruct (Nat.eq_dec (f_slot f) (f_slot g)) as [E|E].
        + assert (f_slot g < length h)%nat as LT by (rewrite <- E; destruct (lt_dec (f_slot f) (length h)); [assumption|rewrite nth_overflow in Nt by lia; discriminate]).
          rewrite <- E in Hy. rewrite nth_list_set_eq in Hy by (rewrite E; exact LT). rewrite <- E in *. eapply (Sp g p0 k m'' y); eauto. rewrite <- E, Nt. now right.
        + rewrite nth_list_set_neq in Hy by assumption. eauto.
      - intros j Nj. destruct (Nat.eq_dec (f_slot f) j) as [<-|E]; [apply Ty; rewrite Nt; discriminate|]. apply Ty. now rewrite nth_list_set_neq in Nj by assumption. }
    assert (forall x y, rs m' x y -> rs m (VMsg (list_set ss (f_slot f) (VList (vlist (slot ss (f_slot f)) ++ [x]))) u hx) (VMsg (list_set ss' (f_slot f) (VList (vlist (slot ss' (f_slot f)) ++ [y]))) u h')) as P.
    { intros x y Rxy. apply rs_msg; [exact Lm|]. assert (rm m (VMsg ss u hx) (VMsg ss' u h')) as M' by (constructor; auto).
      apply rm_set; auto; [eapply app_list; eauto; eapply rv_sub; eauto; reflexivity|]. intros O. unfold is_oneof in O. rewrite T in O. discriminate. }
    auto.
  - (* r_oneof *) intros m f ss u h ss' h' m' A Ty. destruct (At _ _ _ _ _ _ _ A) as (Lm & Hf & M & Rf & Li).
    remember (slot ss (f_slot f)) as a. remember (slot ss' (f_slot f)) as b. clear Heqa Heqb. rf_cases Rf Ty.
    + left; auto.
    + right. exists n, x, y. split; [reflexivity|]. split; [reflexivity|]. congruence.
    + right. exists (f_num f), x, y. split; [reflexivity|]. split; [reflexivity|]. intros _. injection T0 as <-. now apply (rv_rs sc (KMessage m')).
  - (* r_member *) exact SetMember.
  - (* e_member *) exact SetMember.
Qed.
End Run.
