(** UnmarshalVT and CloneVT in the presence of pools correspond to the same calls
    without pools. *)
From Coq Require Import ZArith List Bool Lia.
From Verif Require Import Base BaseFacts Schema Value Helpers Unmarshal Equal Clone Pool WireSpec Typing MsgSpec DecodeSpec ContentSpec CloneSpec PoolSpec
  MarshalFacts OrderFacts TargetFacts SameFacts EqualRel EqualFacts RunRel RunFacts PoolFacts.
Import ListNotations.
Open Scope Z_scope.

Section PoolRun.
Variable sc : schema.
Hypothesis W : wf_schema sc = true.
Hypothesis UD : up_dec_ok sc.
Hypothesis UC : up_compact sc.
Notation rv := (rv sc text (keeps sc)). Notation rs := (rs sc text (keeps sc)). Notation rf := (rf sc text (keeps sc)). Notation rm := (rm sc text (keeps sc)).

Lemma um_pool_rr al n : (forall path m, md_pool (md_of sc m) = true -> rs m (al path m) (new_msg (md_of sc m))) ->
  forall path m data x y, md_foreign (md_of sc m) = false -> rs m x y -> rr (rs m) (rs m) (um_pool sc al n path m data x) (um_msg sc n m data y).
Proof.
  intros AL. induction n as [|n IH]; intros path m data x y F R; [exact I|]. cbn [um_pool um_msg].
  apply (um_body_rr sc W UD text (keeps sc)); auto.
  - apply text_str.
  - apply text_nil.
  - intros m0 bs v F0 E. pose proof (up_ext_wt sc UD m0 bs v E) as [T _]. pose proof (UC m0 bs v E) as C.
    rewrite <- C at 2. apply tidy_rm; auto. now apply compact_tidy.
  - intros i m0 P. apply AL. exact P.
  - intros i s. split; [apply text_str|reflexivity].
  - intros i s. split; [right; eauto|]. split; [reflexivity|discriminate].
  - intros a [[_ [s ->]]|[K _]]; [exact I|discriminate].
Qed.

(** * CloneVT *)
Hypothesis UCL : up_clone_ok sc.

Lemma rv_left k a b : sub_of k = None -> rv k a b -> rv k a a.
Proof.
  intros S H. inversion H as [? z N|? ? ? K Oa Pb E|? ? ? ? S' R]; subst; [now apply rv_num| |congruence].
  apply rv_text; auto. now apply text_plain.
Qed.
Lemma rm_set_oneof m s u h s' h' i n x y : rm m (VMsg s u h) (VMsg s' u h') ->
  (forall g, In g (md_fields (md_of sc m)) -> f_slot g = i -> exists k, f_ty g = TField LOneof k /\ (f_num g = n -> rv k x y)) ->
  rm m (VMsg (list_set s i (VOneof n x)) u h) (VMsg (list_set s' i (VOneof n y)) u h').
Proof.
  intros H O. inversion H as [? ? ? ? ? ? L1 L2 F Sp N]; subst. constructor; auto; rewrite ?list_set_length; auto.
  intros g Hg. destruct (Nat.eq_dec i (f_slot g)) as [E|E]; [|rewrite !slot_set_neq by assumption; auto].
  destruct (O g Hg (eq_sym E)) as (k & T & V). pose proof (wf_slot sc m g W Hg) as LT. subst i. rewrite !slot_set_eq by congruence.
  destruct (Z.eq_dec (f_num g) n) as [<-|Ne]; [eapply rf_member; eauto|eapply rf_other; eauto].
Qed.
Lemma list_set_same (s : list val) i : list_set s i (slot s i) = s.
Proof. revert i. induction s as [|x s IH]; intros [|i]; cbn; auto. unfold slot in IH. cbn. now rewrite IH. Qed.

Section Level.
Variable rec rec' : step -> nat -> val -> val.
Hypothesis RC : forall st m v b, md_foreign (md_of sc m) = false -> rs m v b -> rs m (rec st m v) (rec' st m v).

Lemma singular_rr st k v b : rv k v b -> rv k (cloneFieldSingular sc rec st k v) (cloneFieldSingular sc rec' st k v).
Proof.
  intros H. destruct (sub_of k) as [m|] eqn:S.
  - pose proof (rv_rs sc k m v b S H) as R. eapply rv_sub; eauto. unfold cloneFieldSingular.
    assert (rs m (if md_foreign (md_of sc m) then up_clone (sc_up sc) m v else rec st m v) (if md_foreign (md_of sc m) then up_clone (sc_up sc) m v else rec' st m v)) as G.
    { destruct (md_foreign (md_of sc m)) eqn:F; [|eauto]. inversion R as [|? ? ? F' Ta Tb E|]; subst; [rewrite (uc_nil sc UCL); apply rs_nil| |congruence].
      pose proof (uc_msg sc UCL m v F Ta). now apply rs_up. }
    destruct (classify_sub k m S) as [C|C]; rewrite C; exact G.
  - unfold cloneFieldSingular. assert (is_num k = true \/ k = KString \/ k = KBytes) as [N|[->| ->]] by (destruct k; auto; discriminate).
    + replace (match classify k with CMsg m | CGrp m => if md_foreign (md_of sc m) then up_clone (sc_up sc) m v else rec st m v | CByt => VBytes (vbytes v) | _ => v end) with v by (destruct k; try discriminate; reflexivity).
      replace (match classify k with CMsg m | CGrp m => if md_foreign (md_of sc m) then up_clone (sc_up sc) m v else rec' st m v | CByt => VBytes (vbytes v) | _ => v end) with v by (destruct k; try discriminate; reflexivity).
      eapply rv_left; eauto.
    + eapply rv_left; eauto.
    + cbn. apply rv_text; auto; [right; eauto|split; [discriminate|eauto]].
Qed.
Lemma list_rr s k l l' : Forall2 (rv k) l l' -> forall i, Forall2 (rv k) (clone_list sc rec s k i l) (clone_list sc rec' s k i l).
Proof. induction 1 as [|x y l l' V H IH]; intros i; cbn; constructor; auto. eapply singular_rr; eauto. Qed.

Lemma is_nil_spec v : is_nil v = true <-> v = VNil.
Proof. destruct v; cbn; split; congruence. Qed.

Lemma field_rr m f rhs b cur cur' : In f (md_fields (md_of sc m)) -> is_oneof f = false -> rf m f rhs b -> rf m f cur cur' ->
  rf m f (clone_field sc rec f rhs cur) (clone_field sc rec' f rhs cur').
Proof.
  intros Hf O H C. pose proof (wf_ty sc m f W Hf) as Wt. unfold is_oneof in O. unfold clone_field.
  destruct H as [m f k a b T X|m f l k T L|m f l T L K|m f l k a b T L K X|m f l k a b T L K1 K2 Na Nb X|m f p k a b T Sa Sb X|m f kk vk a b T Sa Sb X|m f k T|m f k n u v T Nn|m f k u v T X]; rewrite T in *; try discriminate.
  - assert (sub_of k = None) as S by (cbn in Wt; destruct (sub_of k); [rewrite andb_false_r in Wt; discriminate|reflexivity]).
    assert (k = KBytes \/ k <> KBytes) as [->|NB] by (destruct k; auto; right; discriminate).
    + cbn [classify]. destruct (is_nil a) eqn:E; [assumption|]. eapply rf_implicit; eauto. apply rv_text; auto; [right; eauto|split; [discriminate|eauto]].
    + assert (forall g (c d : val), match classify k with CByt => c | CMsg _ | CGrp _ => d | _ => g end = g) as Z by (intros; destruct k; try discriminate S; try congruence; reflexivity).
      rewrite !Z. eapply rf_implicit; eauto. eapply rv_left; eauto.
  - assert (forall r, clone_field sc r f VNil cur = match classify k with CMsg m | CGrp m => if md_foreign (md_of sc m) then cur else cloneFieldSingular sc r (SField (f_slot f)) k VNil | _ => cur end) as Z1
      by (intros; unfold clone_field; rewrite T; destruct L; subst; reflexivity).
    assert (forall r, clone_field sc r f VNil cur' = match classify k with CMsg m | CGrp m => if md_foreign (md_of sc m) then cur' else cloneFieldSingular sc r (SField (f_slot f)) k VNil | _ => cur' end) as Z2
      by (intros; unfold clone_field; rewrite T; destruct L; subst; reflexivity).
    pose proof (Z1 rec) as Q1. pose proof (Z2 rec') as Q2. unfold clone_field in Q1, Q2. rewrite T in Q1, Q2. rewrite Q1, Q2. clear Z1 Z2 Q1 Q2.
    destruct (sub_of k) as [m'|] eqn:S.
    + assert (rf m f (if md_foreign (md_of sc m') then cur else cloneFieldSingular sc rec (SField (f_slot f)) k VNil) (if md_foreign (md_of sc m') then cur' else cloneFieldSingular sc rec' (SField (f_slot f)) k VNil)) as G.
      { destruct (md_foreign (md_of sc m')); [assumption|]. assert (rv k VNil VNil) as V0 by (eapply rv_sub; eauto; apply rs_nil).
        pose proof (singular_rr (SField (f_slot f)) k VNil VNil V0) as V. pose proof (rv_rs sc k m' _ _ S V) as R. pose proof (rs_nil_iff sc text (keeps sc) m' _ _ R) as NI.
        destruct (val_eq_nil (cloneFieldSingular sc rec (SField (f_slot f)) k VNil)) as [E|E].
        - rewrite (proj1 NI E), E. eapply rf_unset; eauto.
        - eapply rf_direct; eauto; [destruct k; try discriminate; reflexivity|destruct k; discriminate|tauto]. }
      destruct (classify_sub k m' S) as [Ck|Ck]; rewrite Ck; exact G.
    + assert (forall g (c d : val), match classify k with CMsg _ | CGrp _ => c | _ => g end = g) as Z by (intros; destruct k; try discriminate S; reflexivity).
      destruct k; try discriminate S; exact C.
  - assert (rf m f (VBytes []) (VBytes [])) as G by (eapply rf_direct; eauto; try discriminate; apply rv_text; auto; [right; eauto|split; [discriminate|eauto]]).
    destruct L; subst; exact G.
  - assert (rv k a a) as V by (eapply rv_left; eauto; destruct K as [K| ->]; [destruct k; discriminate || reflexivity|reflexivity]).
    assert (rf m f (VPtr a) (VPtr a)) as G by (eapply rf_ptr; eauto).
    destruct L; subst; (destruct K as [K| ->]; [destruct k; try discriminate K; exact G|exact G]).
  - assert (is_nil a = false) as NE by (destruct a; try reflexivity; congruence).
    destruct (sub_of k) as [m'|] eqn:S.
    + assert (rf m f (cloneFieldSingular sc rec (SField (f_slot f)) k a) (cloneFieldSingular sc rec' (SField (f_slot f)) k a)) as G.
      { pose proof (singular_rr (SField (f_slot f)) k a b X) as V. pose proof (rv_rs sc k m' _ _ S V) as R. pose proof (rs_nil_iff sc text (keeps sc) m' _ _ R) as NI.
        destruct (val_eq_nil (cloneFieldSingular sc rec (SField (f_slot f)) k a)) as [E|E].
        - rewrite (proj1 NI E), E. eapply rf_unset; eauto.
        - eapply rf_direct; eauto. tauto. }
      rewrite NE. destruct L; subst; (destruct (classify_sub k m' S) as [Ck|Ck]; rewrite Ck; destruct (md_foreign _); exact G).
    + assert (k = KBytes) as -> by (destruct k; try discriminate; congruence). rewrite NE.
      assert (rf m f (VBytes (vbytes a)) (VBytes (vbytes a))) as G by (eapply rf_direct; eauto; try discriminate; apply rv_text; auto; [right; eauto|split; [discriminate|eauto]]).
      destruct L; subst; exact G.
  - destruct Sa as [->|[l ->]]; [assumption|]. eapply rf_list; eauto. cbn [vlist] in *. eapply list_rr; eauto.
  - destruct Sa as [->|[l ->]]; [assumption|]. eapply rf_map; eauto. cbn [vmap] in *.
    assert (sub_of kk = None) as S by (cbn in Wt; destruct kk; try reflexivity; discriminate).
    clear - X S RC UCL. induction X as [|e e' l l' [V1 V2] X IH]; cbn [map]; constructor; [|exact IH]. cbn [fst snd]. split; [eapply rv_left; eauto|eapply singular_rr; eauto].
Qed.

Lemma member_rr s k x y : rv k x y -> rv k (clone_member sc rec s k x) (clone_member sc rec' s k x).
Proof.
  intros V. unfold clone_member. destruct (sub_of k) as [m'|] eqn:S.
  - assert (rv k (if md_foreign (md_of sc m') then if is_nil x then VNil else cloneFieldSingular sc rec (SField s) k x else cloneFieldSingular sc rec (SField s) k x)
      (if md_foreign (md_of sc m') then if is_nil x then VNil else cloneFieldSingular sc rec' (SField s) k x else cloneFieldSingular sc rec' (SField s) k x)) as G.
    { destruct (md_foreign (md_of sc m')); [destruct (is_nil x)|]; try (eapply singular_rr; eauto). eapply rv_sub; eauto. apply rs_nil. }
    destruct (classify_sub k m' S) as [C|C]; rewrite C; exact G.
  - assert (k = KBytes \/ k <> KBytes) as [->|NB] by (destruct k; auto; right; discriminate).
    + cbn [classify]. destruct (is_nil x); apply rv_text; auto; [apply text_nil|split; [discriminate|auto]|right; eauto|split; [discriminate|eauto]].
    + assert (forall g (c d : val), match classify k with CByt => c | CMsg _ | CGrp _ => d | _ => g end = g) as Z by (intros; destruct k; try discriminate S; try congruence; reflexivity).
      replace (match classify k with CByt => _ | CMsg _ => _ | _ => _ end) with x by (destruct k; try discriminate S; try congruence; reflexivity).
      replace (match classify k with CByt => _ | CMsg _ => _ | _ => _ end) with x by (destruct k; try discriminate S; try congruence; reflexivity).
      eapply rv_left; eauto.
Qed.

Lemma fields_rr m u h h' slots bs : (forall f, In f (md_fields (md_of sc m)) -> rf m f (slot slots (f_slot f)) (slot bs (f_slot f))) ->
  forall fs, incl fs (md_fields (md_of sc m)) -> (forall f, In f fs -> is_oneof f = false) -> forall r r', rm m (VMsg r u h) (VMsg r' u h') ->
  rm m (VMsg (clone_assign slots (clone_field sc rec) fs r) u h) (VMsg (clone_assign slots (clone_field sc rec') fs r') u h').
Proof.
  intros S. unfold clone_assign. induction fs as [|f fs IH]; intros I O r r' R; cbn [fold_left]; [exact R|].
  assert (In f (md_fields (md_of sc m))) as Hf by (apply I; now left). assert (is_oneof f = false) as Of by (apply O; now left).
  apply IH; [intros g Hg; apply I; now right|intros g Hg; apply O; now right|].
  apply rm_set; auto; [|congruence]. eapply field_rr; eauto. inversion R; subst; auto.
Qed.
Lemma oneofs_rr m u h h' slots bs : (forall f, In f (md_fields (md_of sc m)) -> rf m f (slot slots (f_slot f)) (slot bs (f_slot f))) ->
  forall is, (forall i, In i is -> exists f, In f (md_fields (md_of sc m)) /\ is_oneof f = true /\ f_slot f = i) -> forall r r', rm m (VMsg r u h) (VMsg r' u h') ->
  rm m (VMsg (fold_left (fun r s => list_set r s (clone_oneof sc rec (md_of sc m) s (slot slots s) (slot r s))) is r) u h)
       (VMsg (fold_left (fun r s => list_set r s (clone_oneof sc rec' (md_of sc m) s (slot slots s) (slot r s))) is r') u h').
Proof.
  intros S. induction is as [|i is IH]; intros I r r' R; cbn [fold_left]; [exact R|]. apply IH; [intros j Hj; apply I; now right|].
  destruct (I i (or_introl eq_refl)) as (f & Hf & Of & Ei). unfold clone_oneof.
  destruct (slot slots i) as [|z|z|z|x|l|l|n x|z uu hh|o z|o z] eqn:Es; try (rewrite !list_set_same; exact R).
  destruct (find_field n (md_fields (md_of sc m))) as [g|] eqn:Fg; [|rewrite !list_set_same; exact R].
  apply find_field_some in Fg as [Hg En]. destruct (f_ty g) as [lg kg|kk vk] eqn:Tg; [|rewrite !list_set_same; exact R].
  apply rm_set_oneof; [exact R|]. intros g' Hg' Ei'.
  assert (is_oneof g' = true) as Og'.
  { destruct (Z.eq_dec (f_num f) (f_num g')) as [E|E]; [assert (g' = f) as -> by (eapply wf_num_inj; eauto); assumption|].
    destruct (wf_compat sc m f g' W Hf Hg') as [_ C]; [congruence|]. destruct C as [_ C]; [congruence|exact C]. }
  unfold is_oneof in Og'. destruct (f_ty g') as [[] k'|] eqn:Tg'; try discriminate. exists k'. split; [reflexivity|]. intros En'.
  assert (g' = g) as -> by (eapply wf_num_inj; eauto; congruence). rewrite Tg' in Tg. injection Tg as <- <-.
  pose proof (S g Hg) as V. rewrite Ei', Es in V. rewrite <- En in V.
  inversion V as [? ? ? ? ? T0 X|? ? ? ? T0 L|? ? ? T0 L K|? ? ? ? ? ? T0 L K X|? ? ? ? ? ? T0 L K1 K2 Na Nb X|? ? ? ? ? ? T0 Sa Sb X|? ? ? ? ? ? T0 Sa Sb X|? ? ? T0|? ? ? ? ? ? T0 Nn|? ? ? ? ? T0 X]; subst; rewrite Tg' in T0; try discriminate; try (destruct L; subst; discriminate); try congruence.
  injection T0 as <-. eapply member_rr; eauto.
Qed.

Lemma hid_in slots fs : forall h g y, In y (nth g (clone_hid slots fs h) []) -> In y (nth g h []).
Proof.
  unfold clone_hid. induction fs as [|f fs IH]; intros h g y H; cbn [fold_left] in H; [exact H|]. apply IH in H.
  destruct (f_ty f) as [[| | |p|] k|kk vk]; try exact H. destruct (slot slots (f_slot f)); try exact H.
  destruct (Nat.eq_dec (f_slot f) g) as [<-|E]; [|now rewrite nth_list_set_neq in H].
  destruct (lt_dec (f_slot f) (length h)) as [Lt|Ge]; [rewrite nth_list_set_eq in H by assumption; destruct H|].
  rewrite nth_overflow in H; [destruct H|]. rewrite list_set_length. lia.
Qed.
Lemma hid_rr m slots fs s u h s' h' : rm m (VMsg s u h) (VMsg s' u h') -> rm m (VMsg s u (clone_hid slots fs h)) (VMsg s' u (clone_hid slots fs h')).
Proof.
  intros R. inversion R as [? ? ? ? ? ? L1 L2 F Sp N Ty]; subst. constructor; auto.
  - intros f p k m' x Hf T S Hx. eapply Sp; eauto. eapply hid_in; eauto.
  - intros i. destruct (nth i (clone_hid slots fs h') []) as [|y l] eqn:E; [reflexivity|]. exfalso.
    assert (In y (nth i h' [])) as Hy by (eapply (hid_in slots fs); rewrite E; now left). rewrite N in Hy. destruct Hy.
  - intros i Ni. apply Ty. intros E. destruct (nth i (clone_hid slots fs h) []) as [|y l] eqn:Ec; [destruct (Ni eq_refl)|].
    assert (In y (nth i h [])) as Hy by (eapply (hid_in slots fs); rewrite Ec; now left). rewrite E in Hy. destruct Hy.
Qed.
Lemma rm_unknown m s u h s' h' u' : rm m (VMsg s u h) (VMsg s' u h') -> rm m (VMsg s u' h) (VMsg s' u' h').
Proof. intros R. inversion R; subst. now constructor. Qed.

Lemma clone_body_rr m a v b : rm m a (new_msg (md_of sc m)) -> rm m v b -> rm m (clone_body sc rec a m v) (clone_body sc rec' (new_msg (md_of sc m)) m v).
Proof.
  intros A R. destruct (rm_vmsg sc text (keeps sc) m v b R) as (s & u & h & s' & h' & -> & ->). destruct (rm_vmsg sc text (keeps sc) m a _ A) as (r & ur & hr & r' & hr' & -> & E).
  rewrite E in *. cbn [clone_body]. apply (rm_unknown m _ ur). apply hid_rr.
  assert (forall f, In f (md_fields (md_of sc m)) -> rf m f (slot s (f_slot f)) (slot s' (f_slot f))) as S by (inversion R; subst; assumption).
  apply (oneofs_rr m ur _ _ s s' S).
  - intros i Hi. apply oneof_slots_in in Hi as (_ & f & Hf & O & Es). eauto.
  - apply (fields_rr m ur _ _ s s' S); [intros f Hf; now apply filter_In in Hf|intros f Hf; apply filter_In in Hf as [_ O]; now apply negb_true_iff in O|exact A].
Qed.
End Level.

Lemma clone_rr al n : (forall path m, md_foreign (md_of sc m) = false -> rm m (al path m) (new_msg (md_of sc m))) ->
  forall path m v b, md_foreign (md_of sc m) = false -> rs m v b ->
  rs m (clone_msg sc al n path m v) (clone_msg sc (fun _ m => new_msg (md_of sc m)) n path m v).
Proof.
  intros AL. induction n as [|n IH]; intros path m v b F R; cbn [clone_msg]; [apply rs_nil|].
  inversion R as [|? ? ? F'|? ? ? F' R']; subst; [apply rs_nil|congruence|]. apply rs_msg; [exact F|].
  eapply clone_body_rr; eauto.
Qed.

(** * Histories *)
Hypothesis PL : pools_local sc.
Definition pstate_ok (s : pstate) : Prop :=
  Forall (good sc) (in_pool s) /\ Forall (fun e => md_foreign (md_of sc (fst e)) = false /\ exists b, rs (fst e) (snd e) b) (live s).

Lemma good_rm m v : md_foreign (md_of sc m) = false -> good sc (m, v) -> rm m v (new_msg (md_of sc m)).
Proof. intros F (P & E & T). now apply emptied_rm. Qed.
Lemma drawn_rm p m v : Forall (good sc) p -> md_foreign (md_of sc m) = false -> drawn sc p m v -> rm m v (new_msg (md_of sc m)).
Proof.
  intros G F [H| ->]; [|now apply new_rm]. rewrite Forall_forall in G. apply good_rm; auto.
Qed.
Lemma alloc_rs p (al : list Z -> nat -> val) : Forall (good sc) p -> (forall path m', md_pool (md_of sc m') = true -> drawn sc p m' (al path m')) ->
  forall path m, md_pool (md_of sc m) = true -> rs m (al path m) (new_msg (md_of sc m)).
Proof. intros G D path m P. pose proof (PL m P) as F. apply rs_msg; [exact F|]. eapply drawn_rm; eauto. Qed.

Lemma live_replace l1 l2 m v v' : Forall (fun e => md_foreign (md_of sc (fst e)) = false /\ exists b, rs (fst e) (snd e) b) (l1 ++ (m, v) :: l2) ->
  (exists b, rs m v' b) -> Forall (fun e => md_foreign (md_of sc (fst e)) = false /\ exists b, rs (fst e) (snd e) b) (l1 ++ (m, v') :: l2).
Proof.
  intros H R. apply Forall_app in H as [H1 H2]. inversion H2 as [|? ? [F _] H3]; subst. apply Forall_app. split; [exact H1|]. constructor; auto.
Qed.
Lemma live_in l1 l2 m v : Forall (fun e => md_foreign (md_of sc (fst e)) = false /\ exists b, rs (fst e) (snd e) b) (l1 ++ (m, v) :: l2) ->
  md_foreign (md_of sc m) = false /\ exists b, rs m v b.
Proof. intros H. apply Forall_app in H as [_ H]. inversion H; subst. assumption. Qed.

Lemma step_ok a b : pstate_ok a -> pstep sc a b -> pstate_ok b.
Proof.
  intros [G L] H. destruct H as [p p' l I|p l m v P D|p l1 l2 m v al data v' F A E|p l1 l2 m v v' T Ti|p l m v T Ti F|p l1 l2 e|p l1 l2 m v v' q P E|p l1 l2 m v q P E|p l m v al F Hin A1 A2]; cbn [in_pool live] in *.
  - split; [|exact L]. rewrite Forall_forall in *. auto.
  - split; [exact G|]. constructor; [|exact L]. pose proof (PL m P) as F. split; [exact F|]. exists (new_msg (md_of sc m)). apply rs_msg; [exact F|]. eapply drawn_rm; eauto.
  - split; [exact G|]. eapply live_replace; eauto. destruct (live_in l1 l2 m v L) as [_ [b R]].
    pose proof (um_pool_rr al (S (length data)) (alloc_rs p al G A) [] m data v b F R) as X. unfold UnmarshalVT_pool in E.
    destruct E as [E|[e E]]; rewrite E in X; destruct (um_msg sc _ m data b); cbn in X; try contradiction; [eauto|destruct X; eauto].
  - split; [exact G|]. eapply live_replace; eauto. destruct (live_in l1 l2 m v L) as [F _]. exists (trim v'). apply rs_msg; [exact F|]. now apply tidy_rm.
  - split; [exact G|]. constructor; [|exact L]. split; [exact F|]. exists (trim v). apply rs_msg; [exact F|]. now apply tidy_rm.
  - split; [exact G|]. apply Forall_app in L as [L1 L2]. inversion L2; subst. now apply Forall_app.
  - destruct (live_in l1 l2 m v L) as [F [b R]].
    assert (emptied sc m v' /\ tidy sc m v' /\ Forall (good sc) q \/ (v' = VNil /\ q = [])) as X.
    { inversion R as [|? ? ? F'|? ? ? F' R']; subst; [right; cbn in E; injection E as <- <-; auto|congruence|]. left. eapply ResetVT_ok; eauto. }
    split.
    + apply Forall_app. split; [|exact G]. destruct X as [(_ & _ & X)|[_ ->]]; [exact X|constructor].
    + eapply live_replace; eauto. destruct X as [(Em & Ti & _)|[-> _]]; [|exists VNil; apply rs_nil].
      exists (new_msg (md_of sc m)). apply rs_msg; [exact F|]. now apply emptied_rm.
  - destruct (live_in l1 l2 m v L) as [F [b R]]. split.
    + apply Forall_app. split; [|exact G]. eapply ReturnToVTPool_ok; eauto.
    + apply Forall_app in L as [L1 L2]. inversion L2; subst. now apply Forall_app.
  - split; [exact G|]. constructor; [|exact L]. split; [exact F|]. rewrite Forall_forall in L. destruct (L _ Hin) as [_ [b R]]. cbn [fst snd] in R.
    eexists. eapply clone_rr; eauto. intros path m' F'. destruct (md_pool (md_of sc m')) eqn:P; [eapply drawn_rm; eauto|rewrite A2 by assumption; now apply new_rm].
Qed.
Lemma reachable_ok s : reachable sc s -> pstate_ok s.
Proof. induction 1 as [|a b H IH S]; [split; constructor|]. eapply step_ok; eauto. Qed.
End PoolRun.
