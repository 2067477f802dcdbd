(** CloneVT on memory against CloneVT on trees: the clone is a tree of its own, made of new
    objects and objects from the pools, and corresponds to the clone of the tree the original
    corresponds to. *)
From Coq Require Import ZArith List Bool Lia.
From Verif Require Import PoolSpec.
From Verif Require Import Heap HeapSpec HeapRead HeapDec HeapOwnSpec HeapOwnFacts HeapSim HeapCloneSpec.
From Verif Require Import Base BaseFacts Schema Value Helpers Unmarshal Clone Equal WireSpec Typing RecordSpec MsgSpec DecodeSpec ContentSpec CloneSpec
  MarshalFacts OrderFacts TargetFacts UmFacts SameFacts EqualRel EqualFacts RunRel RunFacts PoolFacts PoolRun CloneFacts.
Import ListNotations.
Open Scope Z_scope.

Lemma acc_some {A} (x : M A) s a s' : acc x s = Done a s' -> x s = Some (a, s').
Proof. unfold acc. destruct (x s) as [[b s1]|]; [intros [= -> ->]; reflexivity|discriminate]. Qed.
Lemma bind_some {A B} (x : M A) (k : A -> M B) s a s' : x s = Some (a, s') -> bind x k s = k a s'.
Proof. unfold bind. now intros ->. Qed.
Lemma val_nil_dec (v : val) : v = VNil \/ v <> VNil.
Proof. destruct v; auto; right; discriminate. Qed.

Section Sim.
Variable sc : schema.
Hypothesis W : wf_schema sc = true.
Hypothesis UD : up_dec_ok sc.
Hypothesis UCL : up_clone_ok sc.
Hypothesis UCM : up_clone_more sc.
Variable grow : nat -> nat.
Variable pc : nat -> nat.
Variable pt : nat -> val.
Variable pr : nat -> val -> Prop.
Hypothesis PR : forall m x, pr m x -> rs sc text (keeps sc) m x (new_msg (md_of sc m)).
Variable uclone : nat -> hval -> list obj -> option (hval * list obj).
Hypothesis UO : up_clone_owns sc uclone.
Notation own := (owns true true false none).
Notation oslot := (own_slot true true false none).
Notation base := (base true true false none pc pt pr).
Notation goes := (goes pc). Notation since := (since pc). Notation newb := (newb pc).
Notation rv := (rv sc text (keeps sc)). Notation rs := (rs sc text (keeps sc)). Notation rf := (rf sc text (keeps sc)). Notation rm := (rm sc text (keeps sc)).
Notation cpy := (sub_of).

(** * Reading the original *)
Lemma src_bytes (Q : nat -> Prop) s t v : t = VNil \/ (exists b, t = VBytes b) -> own (heap s) Q t v -> bytes_of v s = Some (vbytes t, s).
Proof.
  intros [->|[b ->]] O; cbn [owns] in O.
  - subst. reflexivity.
  - destruct O as [O|[E _]]; [|discriminate]. destruct v; try contradiction. destruct O as (_ & _ & bs & N & [L E] & _). cbn [bytes_of]. unfold bind, load. rewrite N.
    replace (Nat.leb _ _) with true by (symmetry; apply Nat.leb_le; lia). cbn [vbytes]. now rewrite E.
Qed.
Lemma src_scalar h (Q : nat -> Prop) k t v s : is_num k = true \/ k = KString -> rv k t t -> own h Q t v -> scalar v s = Some (v, s) /\ forall P, own h P t v.
Proof.
  intros K R O. inversion R as [? z N|? ? ? Kt Oa Pb E|? m ? ? S R']; subst.
  - cbn [owns] in O. subst. split; reflexivity.
  - destruct Oa as [[-> [q ->]]|[-> _]]; [|destruct K as [K|K]; discriminate]. cbn [owns] in *. destruct v; cbn in O; try contradiction; [subst; split; reflexivity|]. destruct O as [[] _].
  - destruct k; destruct K; discriminate.
Qed.
Lemma src_msg h (Q : nat -> Prop) ss u hid v : own h Q (VMsg ss u hid) v ->
  exists a hs w, v = HPtr a /\ nth_error h a = Some (OMsg hs w) /\ Q a /\ own_unk h Q u w /\ forall i, (i < length ss)%nat -> own h Q (slot ss i) (nth i hs HNil).
Proof.
  intros O. apply own_msg in O as (_ & a & hs & w & c & -> & Qa & N & U & L & _ & F). exists a, hs, w. split; [reflexivity|]. split; [exact N|]. split; [exact Qa|]. split.
  - destruct U as [U|U]; [now left|right]. destruct w; try contradiction. destruct U as ((Pb & _) & U). split; assumption.
  - intros i Li. specialize (F i Li). apply own_slot_own in F. eapply own_mono; [|exact F]. now intros b (Pb & _).
Qed.

(** * New objects *)
Lemma since_alloc s o : since s (with_heap s (heap s ++ [o])) (length (heap s)).
Proof. unfold HeapSim.since. rewrite newb_alloc. apply Nat.eqb_refl. Qed.
Lemma alloc_some o s : alloc o s = Some (length (heap s), with_heap s (heap s ++ [o])).
Proof. reflexivity. Qed.
Lemma bytes_sim (Q : nat -> Prop) s t v : t = VNil \/ (exists b, t = VBytes b) -> own (heap s) Q t v ->
  exists s' x, hclone_bytes v s = Some (x, s') /\ goes none s s' /\ own (heap s') (since s s') (VBytes (vbytes t)) x.
Proof.
  intros T O. unfold hclone_bytes. rewrite (bind_some _ _ _ _ _ (src_bytes Q s t v T O)). rewrite (bind_some _ _ _ _ _ (alloc_some _ _)). eexists _, _. split; [reflexivity|].
  split; [apply goes_alloc|]. cbn [owns]. left. cbn [owns_bytes with_heap heap]. split; [apply since_alloc|]. split; [lia|].
  eexists. rewrite nth_error_app2, Nat.sub_diag by lia. split; [reflexivity|]. split; [|lia]. split; [lia|]. cbn [skipn]. now rewrite firstn_all.
Qed.
(** Writing to what was made or drawn since. *)
Lemma write_since s0 s a o : base none s0 -> goes none s0 s -> since s0 s a -> goes none s0 (with_heap s (list_set (heap s) a o)).
Proof.
  intros B G Ha. eapply goes_trans; [exact G|]. apply goes_set. right. exact Ha.
Qed.
Lemma since_set s0 s a o b : since s0 (with_heap s (list_set (heap s) a o)) b <-> since s0 s b.
Proof. unfold HeapSim.since, HeapSim.newb, drew, pooled. cbn [with_heap heap free]. now rewrite list_set_length. Qed.
Lemma store_some s a o : (a < length (heap s))%nat -> Heap.store a o s = Some (tt, with_heap s (list_set (heap s) a o)).
Proof. intros L. unfold Heap.store. apply Nat.ltb_lt in L. rewrite L. reflexivity. Qed.
Lemma since_lt s0 s a : base none s0 -> goes none s0 s -> since s0 s a -> (a < length (heap s))%nat.
Proof. intros B G H. now destruct (new_fresh _ _ _ _ _ _ _ _ _ _ _ B G H). Qed.
(** What is new later is not what was new before. *)
Lemma since_apart s0 s s2 b : base none s0 -> goes none s0 s -> goes none s s2 -> newb s s2 b = true -> ~ since s0 s b.
Proof.
  intros B G G2 H. assert (base (since s0 s) s) as B1 by (now apply base_since). destruct (new_fresh _ _ _ _ _ _ _ _ _ _ _ B1 (goes_none _ (since s0 s) _ _ G2) H) as (_ & _ & X & _). exact X.
Qed.

Lemma since_left s0 s s2 b : goes none s s2 -> since s0 s b -> since s0 s2 b.
Proof. intros G H. exact (newb_left pc none s0 s s2 b G H). Qed.
Lemma since_right s0 s s2 b : goes none s0 s -> newb s s2 b = true -> since s0 s2 b.
Proof. intros G H. exact (newb_right pc none s0 s s2 b G H). Qed.

(** * One level of messages *)
Section Level.
Variables n n' : nat.
Variable hrec : nat -> hval -> M hval.
Variable rec : step -> nat -> val -> val.
Hypothesis Hrec : forall st m Q s t v y, md_foreign (md_of sc m) = false -> base Q s -> own (heap s) Q t v -> rs m t y -> (vdepth t < n)%nat -> (vdepth y < n')%nat -> wt_ptrmsg sc m y ->
  exists s' x t', hrec m v s = Some (x, s') /\ goes none s s' /\ own (heap s') (since s s') t' x /\ rs m t' (rec st m y).
Definition fit (k : kind) (y : val) : Prop := (vdepth y < n')%nat /\ wt_elem sc k y.
Lemma fit_sub k m y : sub_of k = Some m -> fit k y -> (vdepth y < n')%nat /\ wt_ptrmsg sc m y.
Proof. intros S [D T]. split; [exact D|]. inversion T as [k0 z R| | | |? m0 S0|? m0 ? S0 T0]; subst; try discriminate; [destruct k; discriminate|now left|right; congruence]. Qed.
Notation hsingular := (hclone_singular sc uclone hrec).
Notation singular := (cloneFieldSingular sc rec).

Lemma rs_ptr m a b : rs m a b -> md_foreign (md_of sc m) = true -> wt_ptrmsg sc m a /\ wt_ptrmsg sc m b.
Proof. intros R F. inversion R as [|? ? ? F' Ta Tb E|? ? ? F' R']; subst; [split; now left|split; now right|congruence]. Qed.
Lemma up_sim m Q s t v y : md_foreign (md_of sc m) = true -> base Q s -> own (heap s) Q t v -> rs m t y ->
  exists s' x t', hclone_up uclone m v s = Some (x, s') /\ goes none s s' /\ own (heap s') (since s s') t' x /\ rs m t' (up_clone (sc_up sc) m y).
Proof.
  intros F B O R. destruct (rs_ptr m t y R F) as [Pt _]. destruct (UO Q m v (heap s) t F (fun b Qb => proj1 (proj1 B b Qb)) Pt O) as (r & new & E & Or).
  unfold hclone_up. rewrite E. eexists _, _, _. split; [reflexivity|]. change (mkMem (heap s ++ new) (free s) (picks s)) with (with_heap s (heap s ++ new)). split; [|split].
  - split; [cbn; rewrite app_length; lia|]. split; [|split; [apply incl_refl|auto]]. intros a La _ _. cbn [with_heap heap]. now apply nth_error_app_old.
  - eapply own_mono; [|exact Or]. cbv beta. intros b Hb. apply newb_iff. left. exact Hb.
  - inversion R as [|? ? ? F' Ta Tb Et|? ? ? F' R']; subst; [rewrite (uc_nil sc UCL); apply rs_nil| |congruence].
    apply rs_up; auto; try (apply (uc_msg sc UCL); auto). now apply (uc_trim sc UCM).
Qed.
Lemma rv_self k a b : sub_of k = None -> rv k a b -> rv k a a.
Proof. intros S R. eapply rv_left; eauto. Qed.
Lemma rv_leaf k : sub_of k = None -> is_num k = true \/ k = KString \/ k = KBytes.
Proof. destruct k; auto; discriminate. Qed.
Lemma text_bytes k a b : k = KBytes -> rv k a b -> (a = VNil \/ exists q, a = VBytes q) /\ (b = VNil \/ exists q, b = VBytes q) /\ vbytes a = vbytes b.
Proof.
  intros -> R. inversion R as [? ? N|? ? ? K Oa Pb E|? ? ? ? S]; subst; try discriminate. destruct Oa as [[? _]|[_ Oa]]; [discriminate|]. destruct Pb as [_ Pb]. auto.
Qed.
Lemma new_bytes m : rv KBytes (VBytes m) (VBytes m).
Proof. apply rv_text; auto; [right; eauto|split; [discriminate|eauto]]. Qed.
Lemma bytes_rel a b : (a = VNil \/ exists q, a = VBytes q) -> (b = VNil \/ exists q, b = VBytes q) -> vbytes a = vbytes b -> rv KBytes a b.
Proof. intros A B E. apply rv_text; [auto|right; auto|split; [discriminate|auto]|exact E]. Qed.
Lemma singular_sim st k Q s t v y : base Q s -> own (heap s) Q t v -> rv k t y -> (vdepth t < n)%nat -> fit k y ->
  exists s' x t', hsingular k v s = Some (x, s') /\ goes none s s' /\ own (heap s') (since s s') t' x /\ rv k t' (singular st k y).
Proof.
  intros B O R Dt Dy. unfold hclone_singular, cloneFieldSingular. destruct (sub_of k) as [m|] eqn:S.
  - pose proof (rv_rs sc k m t y S R) as Rs.
    assert (exists s' x t', (if md_foreign (md_of sc m) then hclone_up uclone m v else hrec m v) s = Some (x, s') /\ goes none s s' /\ own (heap s') (since s s') t' x /\
      rs m t' (if md_foreign (md_of sc m) then up_clone (sc_up sc) m y else rec st m y)) as (s' & x & t' & E & G & O' & R').
    { destruct (md_foreign (md_of sc m)) eqn:F; [eapply up_sim; eauto|destruct (fit_sub k m y S Dy); eapply Hrec; eauto]. }
    exists s', x, t'. destruct (classify_sub k m S) as [C|C]; rewrite C; (split; [exact E|]; split; [exact G|]; split; [exact O'|]; eapply rv_sub; eauto).
  - destruct (rv_leaf k S) as [K|[K|K]].
    + destruct (src_scalar (heap s) Q k t v s (or_introl K) (rv_self k t y S R) O) as [E F]. exists s, v, t.
      replace (match classify k with CMsg m | CGrp m => _ | CByt => hclone_bytes v | _ => scalar v end) with (scalar v) by (destruct k; try discriminate; reflexivity).
      replace (match classify k with CMsg m | CGrp m => _ | CByt => VBytes (vbytes y) | _ => y end) with y by (destruct k; try discriminate; reflexivity).
      split; [exact E|]. split; [apply goes_refl|]. split; [apply F|exact R].
    + subst k. destruct (src_scalar (heap s) Q KString t v s (or_intror eq_refl) (rv_self KString t y S R) O) as [E F]. exists s, v, t. cbn [classify].
      split; [exact E|]. split; [apply goes_refl|]. split; [apply F|exact R].
    + subst k. destruct (text_bytes KBytes t y eq_refl R) as (T & _ & Eb). destruct (bytes_sim Q s t v T O) as (s' & x & E & G & O'). exists s', x, (VBytes (vbytes t)). cbn [classify].
      split; [exact E|]. split; [exact G|]. split; [exact O'|]. rewrite Eb. apply new_bytes.
Qed.
Lemma rv_not_list k a b l : rv k a b -> a <> VList l.
Proof.
  intros R ->. inversion R as [? ? N|? ? ? K Oa Pb E|? m ? ? S Rs]; subst.
  - destruct Oa as [[_ [q Q]]|[_ [Q|[q Q]]]]; discriminate.
  - inversion Rs as [|? ? ? F Ta|? ? ? F Rm]; subst; [inversion Ta|inversion Rm].
Qed.
Lemma rv_slot k h P a b x : rv k a b -> own h P a x -> oslot h P a [] x.
Proof. intros R O. apply slot_other; [exact O|]. intros l. eapply rv_not_list; eauto. Qed.

(** ** Lists *)
Lemma set_elem_some a i x s es : nth_error (heap s) a = Some (OArr es) -> set_elem a i x s = Some (tt, with_heap s (list_set (heap s) a (OArr (list_set es i x)))).
Proof. intros N. unfold set_elem, bind, load. rewrite N. apply store_some. eapply at_lt; eauto. Qed.
Lemma elems_sim sl k (Q : nat -> Prop) s0 a : base Q s0 -> forall ts vs ys i s es c done, Forall2 (own (heap s0) Q) ts vs -> Forall2 (rv k) ts ys ->
  (forall x, In x ts -> (vdepth x < n)%nat) -> (forall x, In x ys -> fit k x) ->
  goes none s0 s -> since s0 s a -> nth_error (heap s) a = Some (OArr es) -> length es = (i + length vs)%nat -> length done = i ->
  (forall j x, nth_error done j = Some x -> own (heap s) (part (since s0 s) a c j) x (nth j es HNil)) ->
  exists s' ts' es' c', hclone_elems sc uclone hrec k a i vs s = Some (tt, s') /\ goes none s0 s' /\ since s0 s' a /\ nth_error (heap s') a = Some (OArr es') /\ length es' = length es /\
    (forall j x, nth_error (done ++ ts') j = Some x -> own (heap s') (part (since s0 s') a c' j) x (nth j es' HNil)) /\ Forall2 (rv k) ts' (clone_list sc rec sl k i ys).
Proof.
  intros B. induction ts as [|t ts IH]; intros vs ys i s es c done Fo Fr Dt Dy G Ha N Le Ld D; inversion Fo as [|? v ? vs' Ot Fo']; subst; inversion Fr as [|? y ? ys' Rt Fr']; subst.
  - exists s, [], es, c. cbn [hclone_elems clone_list]. rewrite app_nil_r. repeat split; auto; apply G.
  - cbn [hclone_elems clone_list]. pose proof (base_none _ _ _ _ _ _ _ _ _ B) as Bn. assert (base Q s) as Bs by (eapply base_later; [exact B|exact G]). assert (own (heap s) Q t v) as Os by (eapply own_later; [exact B|exact G|exact Ot]).
    destruct (singular_sim (SElem sl (length done)) k Q s t v y Bs Os Rt (Dt t (or_introl eq_refl)) (Dy y (or_introl eq_refl))) as (s2 & x & t' & E & G2 & Ox & Rx).
    rewrite (bind_some _ _ _ _ _ E). assert (goes none s0 s2) as G02 by (eapply none_trans; eauto).
    assert (since s0 s2 a) as Ha2 by exact (since_left _ _ _ _ G2 Ha).
    assert (forall b, newb s s2 b = true -> ~ since s0 s b) as Ap by (intros b Hb; exact (since_apart _ _ _ _ Bn G G2 Hb)).
    assert (forall b, since s0 s b -> nth_error (heap s2) b = nth_error (heap s) b) as Kp.
    { intros b Hb. assert (base (since s0 s) s) as [B1 _] by (apply base_since; [exact Bn|exact G]). destruct (B1 b Hb) as [Lb Ub]. apply (goes_keep pc none s s2); auto. }
    assert (nth_error (heap s2) a = Some (OArr es)) as N2 by (rewrite Kp; auto).
    rewrite (bind_some _ _ _ _ _ (set_elem_some a (length done) x s2 es N2)). set (s3 := with_heap s2 (list_set (heap s2) a (OArr (list_set es (length done) x)))).
    assert (goes none s0 s3) as G03 by (now apply write_since).
    assert (length done < length es)%nat as Li by (cbn in Le; lia).
    assert (forall b, b <> a -> nth_error (heap s3) b = nth_error (heap s2) b) as K3 by (intros b Nb; cbn [s3 with_heap heap]; apply nth_error_set_neq; congruence).
    destruct (IH vs' ys' (S (length done)) s3 (list_set es (length done) x) (recolor (newb s s2) (length done) c) (done ++ [t'])) as (s' & ts' & es' & c' & E' & G' & Ha' & N' & Le' & D' & R'); auto.
    + intros z Hz. apply Dt. now right.
    + intros z Hz. apply Dy. now right.
    + apply since_set. exact Ha2.
    + cbn [s3 with_heap heap]. eapply set_at; eauto.
    + rewrite list_set_length. cbn in Le. lia.
    + rewrite app_length. cbn. lia.
    + intros j z Ej. destruct (Nat.lt_ge_cases j (length done)) as [Lj|Lj].
      * rewrite nth_error_app1 in Ej by assumption. rewrite nth_list_set_neq by lia. eapply own_keep; [intros b []| |exact (D j z Ej)]. intros b Hb. cbv beta. split.
        -- destruct Hb as (Pb & Nb & Cb). split; [apply since_set; exact (since_left _ _ _ _ G2 Pb)|]. split; [exact Nb|]. unfold recolor. destruct (newb s s2 b) eqn:X; [destruct (Ap b X Pb)|exact Cb].
        -- destruct Hb as (Pb & Nb & _). rewrite K3 by assumption. now apply Kp.
      * rewrite nth_error_app2 in Ej by assumption. assert (j = length done) as ->.
        { destruct (j - length done)%nat as [|q] eqn:Eq; [lia|]. destruct q; discriminate. }
        rewrite Nat.sub_diag in Ej. cbn in Ej. injection Ej as <-. rewrite nth_list_set_eq by assumption. eapply own_keep; [intros b []| |exact Ox]. intros b Hb. assert (b <> a) as Nb by (intros ->; exact (Ap a Hb Ha)).
        split; [|now apply K3]. split; [apply since_set; exact (since_right _ _ _ _ G Hb)|]. split; [exact Nb|]. unfold recolor. unfold HeapSim.since in Hb. now rewrite Hb.
    + rewrite list_set_length in Le'. exists s', (t' :: ts'), es', c'. rewrite <- app_assoc in D'. cbn [app] in D'. split; [exact E'|]. repeat (split; [assumption|]). constructor; assumption.
Qed.
Lemma list_src (Q : nat -> Prop) s l v : own (heap s) Q (VList l) v -> exists vs, elems_of v s = Some (vs, s) /\ Forall2 (own (heap s) Q) l vs.
Proof.
  intros O. apply own_list in O as (a & off & cap & es & c & -> & Qa & N & L & C & F). cbn [elems_of]. unfold bind, load. rewrite N. replace (Nat.leb _ _) with true by (symmetry; apply Nat.leb_le; lia).
  eexists. split; [reflexivity|]. assert (forall i, (i <= length l)%nat -> Forall2 (own (heap s) Q) (skipn i l) (firstn (length l - i) (skipn (off + i) es))) as K.
  { intros i. remember (length l - i)%nat as d eqn:Ed. revert i Ed. induction d as [|d IH]; intros i Ed Li.
    - rewrite skipn_all2 by lia. constructor.
    - destruct (nth_error l i) as [x|] eqn:Ex; [|apply nth_error_None in Ex; lia]. assert (i < length l)%nat as Lt by lia.
      assert (skipn i l = x :: skipn (S i) l) as ->.
      { clear - Ex. revert i Ex. induction l as [|y l IH]; intros [|i] Ex; try discriminate; cbn in *; [congruence|]. now apply IH. }
      assert (skipn (off + i) es = nth (off + i) es HNil :: skipn (off + S i) es) as ->.
      { replace (off + S i)%nat with (S (off + i)) by lia. assert (off + i < length es)%nat as Lo by lia. clear - Lo. revert Lo. generalize (off + i)%nat as q. induction es as [|y es IH]; intros q Lo; cbn in Lo; [lia|]. destruct q; [reflexivity|]. cbn. apply IH. lia. }
      cbn [firstn]. constructor; [|apply IH; lia]. eapply own_mono; [|exact (F i x Ex)]. now intros b (Pb & _). }
  specialize (K 0%nat ltac:(lia)). rewrite Nat.sub_0_r, Nat.add_0_r in K. exact K.
Qed.
Lemma f2_len {A B} (R : A -> B -> Prop) l l' : Forall2 R l l' -> length l = length l'.
Proof. induction 1; cbn; congruence. Qed.
Lemma clone_list_length s k l : forall i, length (clone_list sc rec s k i l) = length l.
Proof. induction l as [|x l IH]; intros i; cbn; auto. Qed.
Lemma list_sim sl k (Q : nat -> Prop) s l v l' : base Q s -> own (heap s) Q (VList l) v -> Forall2 (rv k) l l' -> (vdepth (VList l) < n)%nat -> (forall x, In x l' -> fit k x) ->
  exists s' x ts, (let! q := elems_of v in let! a := alloc (OArr (repeat HNil (length q))) in let! _ := hclone_elems sc uclone hrec k a 0 q in ret (HSlice a 0 (length q) (length q))) s = Some (x, s') /\
    goes none s s' /\ oslot (heap s') (since s s') (VList ts) [] x /\ Forall2 (rv k) ts (clone_list sc rec sl k 0 l').
Proof.
  intros B O R Dt Dy. destruct (list_src Q s l v O) as (vs & E & Fo). rewrite (bind_some _ _ _ _ _ E), (bind_some _ _ _ _ _ (alloc_some _ _)).
  set (a := length (heap s)). set (s1 := with_heap s _). pose proof (base_none _ _ _ _ _ _ _ _ _ B) as Bn.
  assert (goes none s s1) as G1 by apply goes_alloc.
  destruct (elems_sim sl k Q s a B l vs l' 0%nat s1 (repeat HNil (length vs)) (fun _ => 0%nat) []) as (s' & ts & es & c & E' & G' & Ha & N' & Le & D & Rt); auto.
  - intros x Hx. pose proof (depth_list x l Hx). lia.
  - apply since_alloc.
  - cbn [s1 with_heap heap]. unfold a. rewrite nth_error_app2, Nat.sub_diag by lia. reflexivity.
  - apply repeat_length.
  - intros [|j] x; discriminate.
  - rewrite (bind_some _ _ _ _ _ E'). eexists s', _, ts. split; [reflexivity|]. split; [exact G'|]. rewrite repeat_length in Le.
    assert (length ts = length vs) as Lt by (rewrite (f2_len _ _ _ Rt), clone_list_length, <- (f2_len _ _ _ R); now apply f2_len in Fo). split; [|exact Rt].
    apply own_slot_nil. split.
    + apply own_list. exists a, 0%nat, (length vs), es, c. rewrite Lt. cbn [Nat.add]. repeat (split; [auto; lia|]). exact D.
    + intros _ j b _. cbn [spare_at]. replace (Nat.ltb _ _) with false by (symmetry; apply Nat.ltb_ge; lia). discriminate.
Qed.

(** ** Maps *)
Lemma set_key_some a k x s es : nth_error (heap s) a = Some (OMap es) -> set_key a k x s = Some (tt, with_heap s (list_set (heap s) a (OMap (es ++ [(k, x)])))).
Proof. intros N. unfold set_key, bind, load. rewrite N. apply store_some. eapply at_lt; eauto. Qed.
Lemma key_scalar h k v s : owns_key none h k v -> scalar v s = Some (v, s) /\ forall h', owns_key none h' k v.
Proof.
  destruct k; cbn [owns_key]; try contradiction.
  - intros ->. split; reflexivity.
  - destruct v; cbn [reads_string]; try contradiction; [intros ->; split; reflexivity|intros [[] _]].
Qed.
Definition key_own (h : list obj) (Q : nat -> Prop) (t : val * val) (v : hval * hval) : Prop := owns_key none h (fst t) (fst v) /\ own h Q (snd t) (snd v).
Definition key_rel (kk vk : kind) (t y : val * val) : Prop := rv kk (fst t) (fst y) /\ rv vk (snd t) (snd y).
Lemma entries_sim sl kk vk (Q : nat -> Prop) s0 a : base Q s0 -> forall ts vs ys s es c done, Forall2 (key_own (heap s0) Q) ts vs -> Forall2 (key_rel kk vk) ts ys ->
  (forall x, In x ts -> (vdepth (snd x) < n)%nat) -> (forall x, In x ys -> fit vk (snd x)) ->
  goes none s0 s -> since s0 s a -> nth_error (heap s) a = Some (OMap es) -> length es = length done ->
  (forall j x e, nth_error done j = Some x -> nth_error es j = Some e -> entry_at true true false none (heap s) (since s0 s) a c j x e) ->
  exists s' ts' es' c', hclone_entries sc uclone hrec vk a vs s = Some (tt, s') /\ goes none s0 s' /\ since s0 s' a /\ nth_error (heap s') a = Some (OMap es') /\ length es' = length (done ++ ts') /\
    (forall j x e, nth_error (done ++ ts') j = Some x -> nth_error es' j = Some e -> entry_at true true false none (heap s') (since s0 s') a c' j x e) /\
    Forall2 (key_rel kk vk) ts' (map (fun e => (fst e, singular (SKey sl (fst e)) vk (snd e))) ys).
Proof.
  intros B. induction ts as [|t ts IH]; intros vs ys s es c done Fo Fr Dt Dy G Ha N Le D; inversion Fo as [|? v ? vs' [Ok Ot] Fo']; subst; inversion Fr as [|? y ? ys' [Rk Rt] Fr']; subst.
  - exists s, [], es, c. cbn [hclone_entries map]. rewrite app_nil_r. repeat split; auto; try apply G; now apply (D j x e).
  - destruct v as [hk v]. cbn [fst snd] in *. cbn [hclone_entries map]. pose proof (base_none _ _ _ _ _ _ _ _ _ B) as Bn. assert (base Q s) as Bs by (eapply base_later; [exact B|exact G]). assert (own (heap s) Q (snd t) v) as Os by (eapply own_later; [exact B|exact G|exact Ot]).
    destruct (key_scalar _ _ _ s Ok) as [Ek Hk]. rewrite (bind_some _ _ _ _ _ Ek).
    destruct (singular_sim (SKey sl (fst y)) vk Q s (snd t) v (snd y) Bs Os Rt (Dt t (or_introl eq_refl)) (Dy y (or_introl eq_refl))) as (s2 & x & t' & E & G2 & Ox & Rx).
    rewrite (bind_some _ _ _ _ _ E). assert (goes none s0 s2) as G02 by (eapply none_trans; eauto).
    assert (since s0 s2 a) as Ha2 by exact (since_left _ _ _ _ G2 Ha).
    assert (forall b, newb s s2 b = true -> ~ since s0 s b) as Ap by (intros b Hb; exact (since_apart _ _ _ _ Bn G G2 Hb)).
    assert (forall b, since s0 s b -> nth_error (heap s2) b = nth_error (heap s) b) as Kp.
    { intros b Hb. assert (base (since s0 s) s) as [B1 _] by (apply base_since; [exact Bn|exact G]). destruct (B1 b Hb) as [Lb Ub]. apply (goes_keep pc none s s2); auto. }
    assert (nth_error (heap s2) a = Some (OMap es)) as N2 by (rewrite Kp; auto).
    rewrite (bind_some _ _ _ _ _ (set_key_some a hk x s2 es N2)). set (s3 := with_heap s2 (list_set (heap s2) a (OMap (es ++ [(hk, x)])))).
    assert (goes none s0 s3) as G03 by (now apply write_since).
    assert (forall b, b <> a -> nth_error (heap s3) b = nth_error (heap s2) b) as K3 by (intros b Nb; cbn [s3 with_heap heap]; apply nth_error_set_neq; congruence).
    destruct (IH vs' ys' s3 (es ++ [(hk, x)]) (recolor (newb s s2) (length done) c) (done ++ [(fst t, t')])) as (s' & ts' & es' & c' & E' & G' & Ha' & N' & Le' & D' & R'); auto.
    + intros z Hz. apply Dt. now right.
    + intros z Hz. apply Dy. now right.
    + apply since_set. exact Ha2.
    + cbn [s3 with_heap heap]. eapply set_at; eauto.
    + rewrite !app_length. cbn. lia.
    + intros j z e Ej Ee. destruct (Nat.lt_ge_cases j (length done)) as [Lj|Lj].
      * rewrite nth_error_app1 in Ej by assumption. rewrite nth_error_app1 in Ee by lia. destruct (D j z e Ej Ee) as [K1 K2]. split; [now apply (key_scalar _ _ _ s K1)|].
        eapply own_keep; [intros b []| |exact K2]. intros b Hb. cbv beta. split.
        -- destruct Hb as (Pb & Nb & Cb). split; [apply since_set; exact (since_left _ _ _ _ G2 Pb)|]. split; [exact Nb|]. unfold recolor. destruct (newb s s2 b) eqn:X; [destruct (Ap b X Pb)|exact Cb].
        -- destruct Hb as (Pb & Nb & _). rewrite K3 by assumption. now apply Kp.
      * rewrite nth_error_app2 in Ej by assumption. rewrite nth_error_app2 in Ee by lia. assert (j = length done) as ->.
        { destruct (j - length done)%nat as [|q] eqn:Eq; [lia|]. destruct q; discriminate. }
        rewrite Nat.sub_diag in Ej. rewrite Le, Nat.sub_diag in Ee. cbn in Ej, Ee. injection Ej as <-. injection Ee as <-. split; [apply Hk|]. cbn [snd].
        eapply own_keep; [intros b []| |exact Ox]. intros b Hb. assert (b <> a) as Nb by (intros ->; exact (Ap a Hb Ha)).
        split; [|now apply K3]. split; [apply since_set; exact (since_right _ _ _ _ G Hb)|]. split; [exact Nb|]. unfold recolor. unfold HeapSim.since in Hb. now rewrite Hb.
    + exists s', ((fst t, t') :: ts'), es', c'. rewrite <- app_assoc in *. cbn [app] in *. split; [exact E'|]. repeat (split; [assumption|]). constructor; [split; assumption|assumption].
Qed.
Lemma map_src (Q : nat -> Prop) s l v : own (heap s) Q (VMap l) v -> exists vs, entries_of v s = Some (vs, s) /\ Forall2 (key_own (heap s) Q) l vs.
Proof.
  intros O. apply own_map in O as (a & es & c & -> & Qa & N & L & F). cbn [entries_of]. unfold bind, load. rewrite N. exists es. split; [reflexivity|].
  clear N. assert (forall j t e, nth_error l j = Some t -> nth_error es j = Some e -> key_own (heap s) Q t e) as K.
  { intros j t e E1 E2. destruct (F j t e E1 E2) as [K1 K2]. split; [exact K1|]. eapply own_mono; [|exact K2]. now intros b (Pb & _). }
  clear F. revert es L K. induction l as [|t l IH]; intros [|e es] L K; try discriminate; constructor; [exact (K 0%nat t e eq_refl eq_refl)|]. apply IH; [cbn in L; lia|]. intros j. exact (K (S j)).
Qed.
Lemma map_sim sl kk vk (Q : nat -> Prop) s l v l' : base Q s -> own (heap s) Q (VMap l) v -> Forall2 (key_rel kk vk) l l' -> (vdepth (VMap l) < n)%nat -> (forall x, In x l' -> fit vk (snd x)) ->
  exists s' x ts, (let! q := entries_of v in let! a := alloc (OMap []) in let! _ := hclone_entries sc uclone hrec vk a q in ret (HMap a)) s = Some (x, s') /\
    goes none s s' /\ own (heap s') (since s s') (VMap ts) x /\ Forall2 (key_rel kk vk) ts (map (fun e => (fst e, singular (SKey sl (fst e)) vk (snd e))) l').
Proof.
  intros B O R Dt Dy. destruct (map_src Q s l v O) as (vs & E & Fo). rewrite (bind_some _ _ _ _ _ E), (bind_some _ _ _ _ _ (alloc_some _ _)).
  set (a := length (heap s)). set (s1 := with_heap s _). pose proof (base_none _ _ _ _ _ _ _ _ _ B) as Bn.
  assert (goes none s s1) as G1 by apply goes_alloc.
  destruct (entries_sim sl kk vk Q s a B l vs l' s1 [] (fun _ => 0%nat) []) as (s' & ts & es & c & E' & G' & Ha & N' & Le & D & Rt); auto.
  - intros x Hx. pose proof (depth_map x l Hx). lia.
  - apply since_alloc.
  - cbn [s1 with_heap heap]. unfold a. rewrite nth_error_app2, Nat.sub_diag by lia. reflexivity.
  - intros [|j] x e; discriminate.
  - rewrite (bind_some _ _ _ _ _ E'). eexists s', _, ts. split; [reflexivity|]. split; [exact G'|]. split; [|exact Rt].
    apply own_map. exists a, es, c. cbn [app] in *. do 4 (split; [auto|]). exact D.
Qed.

(** ** A struct member *)
Lemma not_hnil h (Q : nat -> Prop) t v : own h Q t v -> t <> VNil -> v <> HNil.
Proof. intros O N ->. apply own_hnil in O. congruence. Qed.
Lemma pick_hnil {A} v (a b : A) : v <> HNil -> match v with HNil => a | _ => b end = b.
Proof. destruct v; congruence. Qed.
Lemma zero_none f l k : f_ty f = TField l k -> l = LOptional \/ l = LRequired -> zero_of (f_ty f) = VNil.
Proof. intros -> [->| ->]; reflexivity. Qed.
Lemma rf_bytes_new m f l b b' : f_ty f = TField l KBytes -> l = LOptional \/ l = LRequired -> vbytes b = b' -> rf m f (VBytes b') (VBytes (vbytes b)).
Proof. intros T L <-. eapply rf_direct; eauto; try discriminate. apply new_bytes. Qed.
Lemma member_direct m f l k m' t y : f_ty f = TField l k -> l = LOptional \/ l = LRequired -> sub_of k = Some m' -> rv k t y -> rf m f t y.
Proof.
  intros T L S R. pose proof (rv_rs sc k m' _ _ S R) as Rs. pose proof (rs_nil_iff sc text (keeps sc) m' _ _ Rs) as NI. destruct (val_nil_dec t) as [E|E].
  - rewrite E, (proj1 NI E). eapply rf_unset; eauto.
  - eapply rf_direct; eauto; [destruct k; try discriminate; reflexivity|destruct k; discriminate|tauto].
Qed.
Lemma vnil_own h (Q : nat -> Prop) v : own h Q VNil v -> v = HNil.
Proof. intros O. exact O. Qed.
Lemma nil_rel k m' : sub_of k = Some m' -> rv k VNil VNil.
Proof. intros S. eapply rv_sub; eauto. apply rs_nil. Qed.

Lemma implicit_inv m f k a b : f_ty f = TField LImplicit k -> rf m f a b -> rv k a b.
Proof. intros T R. inversion R; subst; try congruence; match goal with H : f_ty f = _ |- _ => rewrite T in H; first [injection H; intros; subst; assumption|injection H; intros; subst; match goal with L : _ \/ _ |- _ => destruct L; discriminate end|discriminate] end. Qed.
Lemma map_inv m f kk vk a b : f_ty f = TMap kk vk -> rf m f a b -> (a = VNil \/ exists l, a = VMap l) /\ Forall2 (key_rel kk vk) (vmap a) (vmap b).
Proof. intros T R. inversion R; subst; try congruence. match goal with H : f_ty f = TMap _ _ |- _ => rewrite T in H; injection H; intros; subst end. split; assumption. Qed.

Lemma fit_direct m f l k m' y : f_ty f = TField l k -> l = LOptional \/ l = LRequired -> sub_of k = Some m' -> (vdepth y < n')%nat -> wt_field sc (md_of sc m) f y -> fit k y.
Proof.
  intros T L S D H. split; [exact D|]. apply wt_field_inv in H. rewrite T in H. assert (wt_elem sc k y); [|assumption].
  destruct L; subst l; (destruct H as [->|[(x & -> & [K| ->] & _)|(_ & _ & H)]]; [eapply wt_nilsub; eauto|destruct k; discriminate|discriminate|exact H]).
Qed.
Lemma fit_list m f p k y x : f_ty f = TField (LRepeated p) k -> (vdepth y < n')%nat -> wt_field sc (md_of sc m) f y -> In x (vlist y) -> fit k x.
Proof.
  intros T D H Hx. destruct y as [| | | | |ly| | | | |]; try (destruct Hx). cbn [vlist] in Hx. pose proof (depth_list x ly Hx). split; [lia|].
  apply wt_field_inv in H. rewrite T in H. destruct H as [H|(l & [= ->] & H)]; [discriminate|auto].
Qed.
Lemma fit_map m f kk vk y x : f_ty f = TMap kk vk -> (vdepth y < n')%nat -> wt_field sc (md_of sc m) f y -> In x (vmap y) -> fit vk (snd x).
Proof.
  intros T D H Hx. destruct y as [| | | | | |ly| | | |]; try (destruct Hx). cbn [vmap] in Hx. pose proof (depth_map x ly Hx). split; [lia|].
  apply wt_field_inv in H. rewrite T in H. destruct H as [H|(l & [= ->] & _ & H & _)]; [discriminate|auto].
Qed.

Definition done_field m f s s2 (x cur : hval) (t' tcur y : val) : Prop :=
  goes none s s2 /\ rf m f t' (clone_field sc rec f y (zero_of (f_ty f))) /\ ((x = cur /\ s2 = s /\ t' = tcur) \/ oslot (heap s2) (since s s2) t' [] x).

Lemma field_sim m f (Q : nat -> Prop) s t rhs y cur tcur : In f (md_fields (md_of sc m)) -> is_oneof f = false -> base Q s -> own (heap s) Q t rhs -> rf m f t y ->
  rf m f tcur (zero_of (f_ty f)) -> (vdepth t < n)%nat -> (vdepth y < n')%nat -> wt_field sc (md_of sc m) f y ->
  exists s2 x t', hclone_field sc uclone hrec f rhs cur s = Some (x, s2) /\ done_field m f s s2 x cur t' tcur y.
Proof.
  intros Hf No B O H C Dt Dy Ty. pose proof (wf_ty sc m f W Hf) as Wt. unfold is_oneof in No. unfold done_field.
  assert (rf m f tcur (clone_field sc rec f y (zero_of (f_ty f))) -> hclone_field sc uclone hrec f rhs cur s = Some (cur, s) ->
    exists s2 x t', hclone_field sc uclone hrec f rhs cur s = Some (x, s2) /\ done_field m f s s2 x cur t' tcur y) as Keep.
  { intros R E. exists s, cur, tcur. split; [exact E|]. split; [apply goes_refl|]. split; [exact R|]. left. auto. }
  unfold done_field in Keep. unfold hclone_field, clone_field in *.
  destruct H as [m f k a b T X|m f l k T L|m f l T L K|m f l k a b T L K X|m f l k a b T L K1 K2 Na Nb X|m f p k a b T Sa Sb X|m f kk vk a b T Sa Sb X|m f k T|m f k q u v T Nn|m f k u v T X]; rewrite T in *; try discriminate.
  - (* implicit *)
    assert (sub_of k = None) as S by (cbn in Wt; destruct (sub_of k); [rewrite andb_false_r in Wt; discriminate|reflexivity]).
    assert (k = KBytes \/ k <> KBytes) as [->|NB] by (destruct k; auto; right; discriminate).
    + cbn [classify] in *. destruct (text_bytes KBytes a b eq_refl X) as (Ta & Tb & Eb). cbn [zero_of classify] in *.
      pose proof (implicit_inv m f KBytes tcur VNil T C) as Xc.
      destruct (text_bytes KBytes tcur VNil eq_refl Xc) as (Tc & _ & Ec).
      destruct Ta as [->|[qa ->]].
      * apply vnil_own in O. subst rhs. apply Keep; [|reflexivity]. eapply rf_implicit; eauto. destruct Tb as [->|[qb ->]]; [exact Xc|]. cbn [is_nil vbytes] in *. subst qb.
        apply bytes_rel; eauto.
      * rewrite (pick_hnil rhs) by (eapply not_hnil; eauto; discriminate). destruct (bytes_sim Q s (VBytes qa) rhs) as (s' & x & E & G & O'); eauto. exists s', x, (VBytes (vbytes (VBytes qa))).
        split; [exact E|]. split; [exact G|]. split.
        -- eapply rf_implicit; eauto. destruct Tb as [->|[qb ->]]; cbn [is_nil vbytes] in *; apply bytes_rel; eauto.
        -- right. apply slot_other; [exact O'|discriminate].
    + assert (forall A (g c d : A), match classify k with CByt => c | CMsg _ | CGrp _ => d | _ => g end = g) as Z by (intros; destruct k; try discriminate S; try congruence; reflexivity).
      rewrite !Z in *. assert (is_num k = true \/ k = KString) as Kk by (destruct (rv_leaf k S) as [?|[?|?]]; auto; congruence).
      destruct (src_scalar (heap s) Q k a rhs s Kk (rv_self k a b S X) O) as [E F]. exists s, rhs, a. split; [exact E|]. split; [apply goes_refl|]. split; [eapply rf_implicit; eauto|].
      right. eapply rv_slot; eauto.
  - (* unset *)
    apply vnil_own in O. subst rhs. assert (zero_of (f_ty f) = VNil) as Z0 by (eapply zero_none; eauto). rewrite T in Z0. rewrite Z0 in *.
    destruct (sub_of k) as [m'|] eqn:S.
    + destruct (singular_sim (SField (f_slot f)) k Q s VNil HNil VNil B eq_refl (nil_rel k m' S) Dt (fit_direct m f l k m' _ T L S Dy Ty)) as (s' & x & t' & E & G & O' & R').
      pose proof (member_direct m f l k m' t' _ T L S R') as Rf. pose proof (rv_slot _ _ _ _ _ _ R' O') as Os.
      destruct (classify_sub k m' S) as [Ck|Ck]; rewrite Ck in *; destruct (md_foreign (md_of sc m')) eqn:F; destruct L; subst l; cbn [is_nil] in *;
        first [apply Keep; [assumption|reflexivity] | exists s', x, t'; split; [exact E|]; split; [exact G|]; split; [exact Rf|]; right; exact Os].
    + assert (classify k = CByt \/ (forall A (g c : A) (d : nat -> A), match classify k with CByt => c | CMsg m | CGrp m => d m | _ => g end = g)) as [Ck|Z] by (destruct k; try discriminate S; auto; right; reflexivity).
      * rewrite Ck in *. destruct L; subst l; apply Keep; auto.
      * assert (forall A (c : A) (d : nat -> A) g, match classify k with CByt => c | CMsg m | CGrp m => d m | _ => g end = g) as Z' by (intros; apply Z).
        destruct L; subst l; destruct k; try discriminate S; try (apply Keep; [assumption|reflexivity]).
  - (* kept *)
    assert (zero_of (f_ty f) = VNil) as Z0 by (eapply zero_none; eauto). rewrite T in Z0. rewrite Z0 in *.
    destruct (bytes_sim Q s (VBytes []) rhs) as (s' & x & E & G & O'); eauto. pose proof (not_hnil _ _ _ _ O ltac:(discriminate)) as Nh.
    exists s', x, (VBytes []). split; [destruct L; subst l; cbn [classify]; rewrite (pick_hnil rhs) by exact Nh; exact E|]. split; [exact G|]. split.
    + assert (rf m f (VBytes []) VNil) as Q0 by (eapply rf_kept; eauto). destruct L; subst l; exact Q0.
    + right. apply slot_other; [exact O'|discriminate].
  - (* pointer *)
    destruct O as (p & z & -> & Qp & N & Oz). assert (sub_of k = None) as S by (destruct K as [K| ->]; [destruct k; discriminate || reflexivity|reflexivity]).
    assert (is_num k = true \/ k = KString) as Kk by exact K.
    destruct (src_scalar (heap s) _ k a z s Kk (rv_self k a b S X) Oz) as [E F].
    set (s1 := with_heap s (heap s ++ [OCell z])).
    exists s1, (HPtr (length (heap s))), (VPtr a). split.
    { assert (match HPtr p with HNil => ret cur | HPtr a0 => bind (load a0) (fun o => match o with OCell v => bind (scalar v) (fun x => bind (alloc (OCell x)) (fun a' => ret (HPtr a'))) | _ => fail end) | _ => fail end s = Some (HPtr (length (heap s)), s1)) as E0.
      { unfold bind at 1, load. rewrite N. rewrite (bind_some _ _ _ _ _ E). reflexivity. }
      destruct L; subst l; (destruct K as [K| ->]; [destruct k; try discriminate K; exact E0|exact E0]). }
    split; [apply goes_alloc|]. split.
    { assert (rf m f (VPtr a) (VPtr b)) as Q0 by (eapply rf_ptr; eauto). destruct L; subst l; (destruct K as [K| ->]; [destruct k; try discriminate K; exact Q0|exact Q0]). }
    right. apply slot_other; [|discriminate]. pose proof (base_none _ _ _ _ _ _ _ _ _ B) as Bn. eapply (own_box true true false none pc pt pr s s (VPtr a) a (OCell z) z Bn); auto.
    apply goes_refl.
  - (* message or bytes, set *)
    pose proof (not_hnil _ _ _ _ O Na) as Nh. assert (is_nil b = false) as NEb by (destruct b; try reflexivity; congruence).
    destruct (sub_of k) as [m'|] eqn:S.
    + destruct (singular_sim (SField (f_slot f)) k Q s a rhs b B O X Dt (fit_direct m f l k m' _ T L S Dy Ty)) as (s' & x & t' & E & G & O' & R').
      pose proof (member_direct m f l k m' t' _ T L S R') as Rf. pose proof (rv_slot _ _ _ _ _ _ R' O') as Os.
      exists s', x, t'. rewrite NEb. split; [|split; [exact G|split; [|right; exact Os]]].
      * destruct (classify_sub k m' S) as [Ck|Ck]; destruct L; subst l; rewrite Ck in *; destruct (md_foreign (md_of sc m')); rewrite ?(pick_hnil rhs) by exact Nh; exact E.
      * destruct (classify_sub k m' S) as [Ck|Ck]; destruct L; subst l; rewrite Ck in *; destruct (md_foreign (md_of sc m')); exact Rf.
    + assert (k = KBytes) as -> by (destruct k; try discriminate; congruence). destruct (text_bytes KBytes a b eq_refl X) as (Ta & Tb & Eb).
      destruct (bytes_sim Q s a rhs Ta O) as (s' & x & E & G & O'). exists s', x, (VBytes (vbytes a)). rewrite NEb. split; [|split; [exact G|split; [|right; apply slot_other; [exact O'|discriminate]]]].
      * destruct L; subst l; cbn [classify]; rewrite (pick_hnil rhs) by exact Nh; exact E.
      * rewrite Eb. assert (rf m f (VBytes (vbytes b)) (VBytes (vbytes b))) as Q0 by (eapply rf_direct; eauto; try discriminate; apply new_bytes). destruct L; subst l; exact Q0.
  - (* list *)
    cbn [zero_of] in *.
    assert (vlist tcur = [] /\ (tcur = VNil \/ exists l, tcur = VList l)) as [Ec Tc].
    { destruct (rf_list_inv sc m f p k _ _ T C) as [Sc Xc]. split; [inversion Xc; reflexivity|exact Sc]. }
    destruct Sa as [->|[la ->]].
    + apply vnil_own in O. subst rhs. apply Keep; [|reflexivity]. destruct Sb as [->|[lb ->]]; [exact C|]. cbn [vlist] in *. inversion X; subst. cbn [clone_list].
      eapply rf_list; eauto. rewrite Ec. constructor.
    + rewrite (pick_hnil rhs) by (eapply not_hnil; eauto; discriminate). cbn [vlist] in X.
      destruct (list_sim (f_slot f) k Q s la rhs (vlist b) B O X Dt) as (s' & x & ts & E & G & Os & R).
      { intros z Hz. eapply fit_list; eauto. }
      exists s', x, (VList ts). split; [exact E|]. split; [exact G|]. split; [|right; exact Os]. destruct Sb as [->|[lb ->]]; cbn [vlist] in *.
      * cbn [clone_list] in R. inversion R; subst. solve [eapply rf_list; eauto; constructor].
      * eapply rf_list; eauto.
  - (* map *)
    cbn [zero_of] in *.
    assert (vmap tcur = [] /\ (tcur = VNil \/ exists l, tcur = VMap l)) as [Ec Tc].
    { destruct (map_inv m f kk vk _ _ T C) as [Sc Xc]. split; [inversion Xc; reflexivity|exact Sc]. }
    destruct Sa as [->|[la ->]].
    + apply vnil_own in O. subst rhs. apply Keep; [|reflexivity]. destruct Sb as [->|[lb ->]]; [exact C|]. cbn [vmap] in *. inversion X; subst. cbn [map].
      eapply rf_map; eauto. rewrite Ec. constructor.
    + rewrite (pick_hnil rhs) by (eapply not_hnil; eauto; discriminate). cbn [vmap] in X.
      destruct (map_sim (f_slot f) kk vk Q s la rhs (vmap b) B O X Dt) as (s' & x & ts & E & G & Os & R).
      { intros z Hz. eapply fit_map; eauto. }
      exists s', x, (VMap ts). split; [exact E|]. split; [exact G|]. split; [|right; apply slot_other; [exact Os|discriminate]]. destruct Sb as [->|[lb ->]]; cbn [vmap] in *.
      * cbn [map] in R. inversion R; subst. solve [eapply rf_map; eauto; constructor].
      * eapply rf_map; eauto.
Qed.

(** ** A oneof *)
Lemma member_sim sl k Q s t v y : base Q s -> own (heap s) Q t v -> rv k t y -> (vdepth t < n)%nat -> fit k y ->
  exists s' x t', hclone_member sc uclone hrec k v s = Some (x, s') /\ goes none s s' /\ own (heap s') (since s s') t' x /\ rv k t' (clone_member sc rec sl k y).
Proof.
  intros B O R Dt Dy. pose proof (singular_sim (SField sl) k Q s t v y B O R Dt Dy) as Si. unfold hclone_member, clone_member.
  destruct (sub_of k) as [m|] eqn:S.
  - pose proof (rs_nil_iff sc text (keeps sc) m _ _ (rv_rs sc k m t y S R)) as NI.
    assert (exists s' x t', (if md_foreign (md_of sc m) then match v with HNil => ret HNil | _ => hsingular k v end else hsingular k v) s = Some (x, s') /\ goes none s s' /\ own (heap s') (since s s') t' x /\
      rv k t' (if md_foreign (md_of sc m) then if is_nil y then VNil else singular (SField sl) k y else singular (SField sl) k y)) as X.
    { destruct (md_foreign (md_of sc m)); [|exact Si]. destruct (val_nil_dec t) as [E|E].
      - rewrite (proj1 NI E). rewrite E in O. apply vnil_own in O. subst v. exists s, HNil, VNil. split; [reflexivity|]. split; [apply goes_refl|]. split; [reflexivity|]. eapply nil_rel; eauto.
      - rewrite (pick_hnil v) by (eapply not_hnil; eauto). replace (is_nil y) with false; [exact Si|]. destruct y; try reflexivity. exfalso. apply E. now apply NI. }
    destruct (classify_sub k m S) as [Ck|Ck]; rewrite Ck; exact X.
  - destruct (rv_leaf k S) as [K|[K|K]].
    + unfold hclone_singular, cloneFieldSingular in Si. destruct k; try discriminate K; exact Si.
    + subst k. exact Si.
    + subst k. cbn [classify hclone_singular cloneFieldSingular] in *. destruct (text_bytes KBytes t y eq_refl R) as (Ta & Tb & Eb). destruct Ta as [->|[q ->]].
      * apply vnil_own in O. subst v. exists s, HNil, VNil. split; [reflexivity|]. split; [apply goes_refl|]. split; [reflexivity|]. destruct Tb as [->|[q ->]]; cbn [is_nil vbytes] in *; apply bytes_rel; eauto.
      * rewrite (pick_hnil v) by (eapply not_hnil; eauto; discriminate). destruct (bytes_sim Q s (VBytes q) v) as (s' & x & E & G & O'); eauto. exists s', x, (VBytes (vbytes (VBytes q))).
        split; [exact E|]. split; [exact G|]. split; [exact O'|]. destruct Tb as [->|[q' ->]]; cbn [is_nil vbytes] in *; apply bytes_rel; eauto.
Qed.
Lemma set_wrap_some a x s k y : nth_error (heap s) a = Some (OWrap k y) -> set_wrap a x s = Some (tt, with_heap s (list_set (heap s) a (OWrap k x))).
Proof. intros N. unfold set_wrap, bind, load. rewrite N. apply store_some. eapply at_lt; eauto. Qed.
(** The wrapper of a member that is set. *)
Lemma wrap_sim sl m g k Q s t v y : base Q s -> own (heap s) Q (VOneof (f_num g) t) v -> In g (md_fields (md_of sc m)) -> f_ty g = TField LOneof k -> rv k t y -> (vdepth t < n)%nat -> fit k y ->
  forall cur, exists s' x t', hclone_oneof sc uclone hrec (md_of sc m) v cur s = Some (x, s') /\ goes none s s' /\ own (heap s') (since s s') (VOneof (f_num g) t') x /\ rv k t' (clone_member sc rec sl k y).
Proof.
  intros B O Hg T R Dt Dy cur. destruct O as (a & z & -> & Qa & N & Oz). cbn [hclone_oneof]. unfold bind at 1, load. rewrite N. rewrite (find_field_in sc m g W Hg), T.
  rewrite (bind_some _ _ _ _ _ (alloc_some _ _)). set (s1 := with_heap s (heap s ++ [OWrap (f_num g) HNil])). set (r := length (heap s)).
  pose proof (base_none _ _ _ _ _ _ _ _ _ B) as Bn. assert (goes none s s1) as G1 by apply goes_alloc.
  assert (base Q s1) as B1 by (eapply base_later; [exact B|exact G1]).
  assert (own (heap s1) Q t z) as O1.
  { eapply own_later; [exact B|exact G1|]. eapply own_mono; [|exact Oz]. now intros b (Pb & _). }
  destruct (member_sim sl k Q s1 t z y B1 O1 R Dt Dy) as (s2 & x & t' & E & G2 & Ox & Rx). rewrite (bind_some _ _ _ _ _ E).
  assert (base (since s s1) s1) as Bs by (now apply base_since).
  assert (since s s1 r) as Hr by apply since_alloc.
  assert (nth_error (heap s2) r = Some (OWrap (f_num g) HNil)) as N2.
  { destruct (proj1 Bs r Hr) as [Lr Ur]. rewrite (goes_keep pc none s1 s2); auto. cbn [s1 with_heap heap]. unfold r. rewrite nth_error_app2, Nat.sub_diag by lia. reflexivity. }
  rewrite (bind_some _ _ _ _ _ (set_wrap_some r x s2 _ _ N2)). set (s3 := with_heap s2 (list_set (heap s2) r (OWrap (f_num g) x))).
  assert (goes none s s2) as G02 by (eapply none_trans; eauto). assert (since s s2 r) as Hr2 by exact (since_left _ _ _ _ G2 Hr).
  exists s3, (HPtr r), t'. split; [reflexivity|]. split; [now apply write_since|]. split; [|exact Rx].
  cbn [owns]. exists r, x. split; [reflexivity|]. split; [apply since_set; exact Hr2|]. split; [cbn [s3 with_heap heap]; eapply set_at; eauto|].
  eapply own_keep; [intros b []| |exact Ox]. intros b Hb. assert (b <> r) as Nb by (intros ->; exact (since_apart _ _ _ _ Bn G1 G2 Hb Hr)).
  split; [split; [apply since_set; exact (since_right _ _ _ _ G1 Hb)|exact Nb]|]. cbn [s3 with_heap heap]. apply nth_error_set_neq. congruence.
Qed.

(** ** Assigning to the clone *)
Definition holds_clone m s0 s r hr ra r' : Prop :=
  goes none s0 s /\ own (heap s) (since s0 s) (VMsg r [] hr) (HPtr ra) /\ rm m (VMsg r [] hr) (VMsg r' [] []).
Lemma rm_hid m r h r' u i : rm m (VMsg r u h) (VMsg r' u []) -> rm m (VMsg r u (list_set h i [])) (VMsg r' u []).
Proof.
  intros R. inversion R as [? ? ? ? ? ? L1 L2 F Sp N Ty]; subst.
  assert (forall j x, In x (nth j (list_set h i []) []) -> In x (nth j h [])) as K.
  { intros j x Hx. destruct (Nat.eq_dec i j) as [<-|Ne]; [|now rewrite nth_list_set_neq in Hx]. destruct (Nat.lt_ge_cases i (length h)) as [Lt|Ge]; [rewrite nth_list_set_eq in Hx by assumption; destruct Hx|].
    rewrite nth_overflow in Hx; [destruct Hx|]. rewrite list_set_length. lia. }
  constructor; auto.
  - intros f p k m' x Hf T S Hx. eapply Sp; eauto.
  - intros j Nj. apply Ty. intros E. destruct (nth j (list_set h i []) []) as [|x l] eqn:Ex; [destruct (Nj eq_refl)|]. specialize (K j x). rewrite Ex, E in K. apply K. now left.
Qed.
Lemma slot_some ra i s hs u : nth_error (heap s) ra = Some (OMsg hs u) -> Heap.get_slot ra i s = Some (nth i hs HNil, s).
Proof. intros N. unfold Heap.get_slot, bind, load. rewrite N. reflexivity. Qed.
Lemma clone_at m s0 s r hr ra r' : holds_clone m s0 s r hr ra r' -> exists hs u, nth_error (heap s) ra = Some (OMsg hs u).
Proof. intros (_ & O & _). apply src_msg in O as (a & hs & w & [= <-] & N & _). eauto. Qed.
Lemma gr_since s0 s s' b P : goes none s0 s -> goes P s s' -> gr pc (since s0 s) s s' b -> since s0 s' b.
Proof. intros G G' [H|H]; [exact (newb_left pc P s0 s s' b G' H)|exact (newb_right pc none s0 s s' b G H)]. Qed.
Lemma put_sim m s0 s r hr ra r' i s2 x t' : base none s0 -> holds_clone m s0 s r hr ra r' -> (i < length r)%nat -> goes none s s2 ->
  (forall cur, Heap.get_slot ra i s = Some (cur, s) -> (x = cur /\ s2 = s /\ t' = slot r i) \/ oslot (heap s2) (since s s2) t' [] x) ->
  exists s' hr', Heap.set_slot ra i x s2 = Some (tt, s') /\ goes none s0 s' /\ own (heap s') (since s0 s') (VMsg (list_set r i t') [] hr') (HPtr ra) /\ (hr' = hr \/ hr' = list_set hr i []).
Proof.
  intros B0 (G & O & _) Li G2 Hx. assert (base (since s0 s) s) as B by (now apply base_since).
  destruct (slot_write true true false none pc pt pr (since s0 s) s r [] hr (HPtr ra) i B O Li) as (a & hs & u & Q & Ea & _ & Lh & HQ & N & Os & _ & Wr & _). injection Ea as <-.
  assert (forall hid' , rest_of hr hid' i -> oslot (heap s2) (gr pc Q s s2) t' (nth i hid' []) x -> (hid' = hr \/ hid' = list_set hr i []) ->
    exists s' hr', Heap.set_slot ra i x s2 = Some (tt, s') /\ goes none s0 s' /\ own (heap s') (since s0 s') (VMsg (list_set r i t') [] hr') (HPtr ra) /\ (hr' = hr \/ hr' = list_set hr i [])) as Fin.
  { intros hid' Re Ot Hh. destruct (Wr s2 t' hid' x (goes_none pc Q _ _ G2) Re Ot) as (s' & E & _ & _ & G' & O'). cbn [dset] in E. apply acc_some in E. exists s', hid'. split; [exact E|]. split.
    - eapply goes_trans; [exact G|]. eapply goes_sub; [|exact G']. intros b _ Hb. now right.
    - split; [|exact Hh]. eapply own_mono; [|exact O']. intros b Hb. eapply gr_since; eauto. }
  destruct (Hx _ (slot_some _ _ _ _ _ N)) as [(-> & -> & ->)|Ot].
  - apply (Fin hr); [now left| |now left]. destruct Os as (kk & O1 & O2 & O3). exists kk. split; [|split].
    + eapply own_mono; [|exact O1]. intros b [Hb Kb]. split; [now left|exact Kb].
    + intros j y Ej. eapply own_mono; [|exact (O2 j y Ej)]. intros b [Hb Kb]. split; [now left|exact Kb].
    + exact O3.
  - apply (Fin (list_set hr i [])); [right; eauto| |now right].
    assert (nth i (list_set hr i []) [] = []) as ->.
    { destruct (Nat.lt_ge_cases i (length hr)) as [Lt|Ge]; [now apply nth_list_set_eq|]. apply nth_overflow. rewrite list_set_length. lia. }
    destruct Ot as (kk & O1 & O2 & O3). exists kk. split; [|split].
    + eapply own_mono; [|exact O1]. intros b [Hb Kb]. split; [now right|exact Kb].
    + intros [|j] y; discriminate.
    + exact O3.
Qed.

(** ** The struct members, the oneofs and the unknown fields *)
Section Source.
Variables (m : nat) (Q : nat -> Prop) (s0 : mem) (a ra : nat) (ss : list val) (u : list Z) (h : list (list val)) (ss' : list val).
Hypothesis B0 : base Q s0.
Hypothesis O0 : own (heap s0) Q (VMsg ss u h) (HPtr a).
Hypothesis Ls : length ss = md_nslots (md_of sc m).
Hypothesis Rs : forall f, In f (md_fields (md_of sc m)) -> rf m f (slot ss (f_slot f)) (slot ss' (f_slot f)).
Hypothesis Ts : forall f, In f (md_fields (md_of sc m)) -> wt_field sc (md_of sc m) f (slot ss' (f_slot f)).
Hypothesis Ds : forall i, (vdepth (slot ss i) < n)%nat.
Hypothesis Ds' : forall i, (vdepth (slot ss' i) < n')%nat.
Notation hc := (holds_clone m s0).

Lemma bn0 : base none s0. Proof. eapply base_none. exact B0. Qed.
Lemma source_at s : goes none s0 s -> exists hs w, nth_error (heap s) a = Some (OMsg hs w) /\ own_unk (heap s) Q u w /\ forall i, (i < length ss)%nat -> own (heap s) Q (slot ss i) (nth i hs HNil).
Proof.
  intros G. assert (own (heap s) Q (VMsg ss u h) (HPtr a)) as O by (eapply own_later; [exact B0|exact G|exact O0]).
  apply src_msg in O as (a' & hs & w & [= <-] & N & _ & U & F). eauto 6.
Qed.
Lemma hc_len s r hr r' : hc s r hr ra r' -> length r = md_nslots (md_of sc m) /\ length r' = md_nslots (md_of sc m).
Proof. intros (_ & _ & R). inversion R; subst. auto. Qed.
Lemma hc_hid r hr r' hr' i : rm m (VMsg r [] hr) (VMsg r' [] []) -> hr' = hr \/ hr' = list_set hr i [] -> rm m (VMsg r [] hr') (VMsg r' [] []).
Proof. intros R [->| ->]; [exact R|now apply rm_hid]. Qed.

Lemma members_sim : forall fs s r hr r', incl fs (md_fields (md_of sc m)) -> (forall f, In f fs -> is_oneof f = false) -> NoDup (map f_slot fs) ->
  (forall f, In f fs -> slot r' (f_slot f) = zero_of (f_ty f)) -> hc s r hr ra r' ->
  exists s' r1 hr1, hclone_members sc uclone hrec a ra fs s = Some (tt, s') /\ hc s' r1 hr1 ra (clone_assign ss' (clone_field sc rec) fs r').
Proof.
  induction fs as [|f fs IH]; intros s r hr r' I No Nd Z H; [exists s, r, hr; split; [reflexivity|exact H]|].
  assert (In f (md_fields (md_of sc m))) as Hf by (apply I; now left). inversion Nd as [|? ? N1 N2]; subst.
  destruct (hc_len _ _ _ _ H) as [Lr Lr']. pose proof (wf_slot sc m f W Hf) as Lf. destruct (clone_at m s0 s r hr ra r' H) as (hs & w & Nr). pose proof H as (G & O & R).
  destruct (source_at s G) as (as_ & aw & Na & _ & Fa). cbn [hclone_members].
  rewrite (bind_some _ _ _ _ _ (slot_some a (f_slot f) s as_ aw Na)), (bind_some _ _ _ _ _ (slot_some ra (f_slot f) s hs w Nr)).
  assert (rf m f (slot r (f_slot f)) (zero_of (f_ty f))) as Rc by (rewrite <- (Z f (or_introl eq_refl)); inversion R; subst; auto).
  assert (base Q s) as Bs by (eapply base_later; [exact B0|exact G]).
  assert (f_slot f < length ss)%nat as Lfs by congruence.
  destruct (field_sim m f Q s (slot ss (f_slot f)) (nth (f_slot f) as_ HNil) (slot ss' (f_slot f)) (nth (f_slot f) hs HNil) (slot r (f_slot f)) Hf (No f (or_introl eq_refl)) Bs (Fa _ Lfs) (Rs f Hf) Rc (Ds _) (Ds' _) (Ts f Hf))
    as (s2 & x & t' & E & G2 & Rx & Hx).
  rewrite (bind_some _ _ _ _ _ E). assert (f_slot f < length r)%nat as Lfr by congruence.
  destruct (put_sim m s0 s r hr ra r' (f_slot f) s2 x t' bn0 H Lfr G2) as (s' & hr' & E' & G' & O' & Hh).
  { intros cur Ec. rewrite (slot_some ra (f_slot f) s hs w Nr) in Ec. injection Ec as <-. exact Hx. }
  rewrite (bind_some _ _ _ _ _ E').
  destruct (IH s' (list_set r (f_slot f) t') hr' (list_set r' (f_slot f) (clone_field sc rec f (slot ss' (f_slot f)) (slot r' (f_slot f))))) as (s3 & r1 & hr1 & E3 & H3).
  - intros g Hg. apply I. now right.
  - intros g Hg. apply No. now right.
  - exact N2.
  - intros g Hg. rewrite slot_set_neq; [apply Z; now right|]. intros Eg. apply N1. rewrite Eg. now apply in_map.
  - split; [exact G'|]. split; [exact O'|]. eapply hc_hid; [|exact Hh]. rewrite (Z f (or_introl eq_refl)). apply rm_set; auto. intros Of. rewrite (No f (or_introl eq_refl)) in Of. discriminate.
  - exists s3, r1, hr1. split; [exact E3|exact H3].
Qed.

Lemma oneofs_sim : forall is s r hr r', (forall i, In i is -> exists f, In f (md_fields (md_of sc m)) /\ is_oneof f = true /\ f_slot f = i) -> hc s r hr ra r' ->
  exists s' r1 hr1, hclone_oneofs sc uclone hrec (md_of sc m) a ra is s = Some (tt, s') /\
    hc s' r1 hr1 ra (fold_left (fun r i => list_set r i (clone_oneof sc rec (md_of sc m) i (slot ss' i) (slot r i))) is r').
Proof.
  induction is as [|i is IH]; intros s r hr r' I H; [exists s, r, hr; split; [reflexivity|exact H]|].
  destruct (I i (or_introl eq_refl)) as (f & Hf & Of & Ei).
  destruct (hc_len _ _ _ _ H) as [Lr Lr']. pose proof (wf_slot sc m f W Hf) as Lf. rewrite Ei in Lf. destruct (clone_at m s0 s r hr ra r' H) as (hs & w & Nr). pose proof H as (G & O & R).
  destruct (source_at s G) as (as_ & aw & Na & _ & Fa). cbn [hclone_oneofs fold_left].
  rewrite (bind_some _ _ _ _ _ (slot_some a i s as_ aw Na)), (bind_some _ _ _ _ _ (slot_some ra i s hs w Nr)).
  assert (base Q s) as Bs by (eapply base_later; [exact B0|exact G]). assert (i < length ss)%nat as Lis by congruence. specialize (Fa i Lis).
  pose proof (Rs f Hf) as Rf. pose proof (Ts f Hf) as Tf. rewrite Ei in Rf, Tf. apply wt_field_inv in Tf. pose proof Of as Of'. unfold is_oneof in Of'. destruct (f_ty f) as [[] k|] eqn:T; try discriminate.
  assert (exists s2 x t' y', hclone_oneof sc uclone hrec (md_of sc m) (nth i as_ HNil) (nth i hs HNil) s = Some (x, s2) /\ goes none s s2 /\ y' = clone_oneof sc rec (md_of sc m) i (slot ss' i) (slot r' i) /\
    ((x = nth i hs HNil /\ s2 = s /\ t' = slot r i) \/ oslot (heap s2) (since s s2) t' [] x) /\
    rm m (VMsg (list_set r i t') [] hr) (VMsg (list_set r' i y') [] [])) as (s2 & x & t' & y' & E & G2 & Ey & Hx & Rx).
  { destruct Tf as [En|(g & kg & z & En & Hg & Eg & Tg & Tz)]; rewrite En in *.
    - assert (slot ss i = VNil) as Et by
        (inversion Rf as [? ? ? ? ? T0 X|? ? ? ? T0 L|? ? ? T0 L K|? ? ? ? ? ? T0 L K X|? ? ? ? ? ? T0 L K1 K2 X1 X2 X|? ? ? ? ? ? T0 X1 X2 X|? ? ? ? ? ? T0 X1 X2 X|? ? ? T0|? ? ? ? ? ? T0 Nn|? ? ? ? ? T0 X]; subst; rewrite T in T0; try discriminate; try congruence; destruct L; subst; discriminate).
      rewrite Et in Fa. apply vnil_own in Fa. rewrite Fa. cbn [hclone_oneof clone_oneof]. exists s, (nth i hs HNil), (slot r i), (slot r' i). split; [reflexivity|]. split; [apply goes_refl|]. split; [reflexivity|]. split; [now left|]. now rewrite !list_set_same.
    - assert (exists t, slot ss i = VOneof (f_num g) t /\ rv kg t z) as (t & Et & Rt).
      { pose proof (Rs g Hg) as Rg. rewrite Eg, Ei, En in Rg. inversion Rg as [? ? ? ? ? T0 X|? ? ? ? T0 L|? ? ? T0 L K|? ? ? ? ? ? T0 L K X|? ? ? ? ? ? T0 L K1 K2 X1 X2 X|? ? ? ? ? ? T0 X1 X2 X|? ? ? ? ? ? T0 X1 X2 X|? ? ? T0|? ? ? ? ? ? T0 Nn|? ? ? ? ? T0 X]; subst; rewrite Tg in T0; try discriminate; try (destruct L; subst; discriminate); try congruence.
        injection T0 as <-. eauto. }
      rewrite Et in Fa. assert (vdepth t < n)%nat as Dt by (pose proof (Ds i) as D; rewrite Et in D; cbn [vdepth] in D; lia).
      assert (fit kg z) as Fz by (split; [pose proof (Ds' i) as D; rewrite En in D; cbn [vdepth] in D; lia|exact Tz]).
      destruct (wrap_sim i m g kg Q s t _ z Bs Fa Hg Tg Rt Dt Fz (nth i hs HNil)) as (s2 & x & t' & E & G2 & Ox & Rx).
      exists s2, x, (VOneof (f_num g) t'), (VOneof (f_num g) (clone_member sc rec i kg z)). split; [exact E|]. split; [exact G2|].
      split; [cbn [clone_oneof]; now rewrite (find_field_in sc m g W Hg), Tg|]. split; [right; apply slot_other; [exact Ox|discriminate]|].
      apply rm_set_oneof; auto. intros g' Hg' Ei'.
      assert (is_oneof g' = true) as Og'.
      { destruct (Z.eq_dec (f_num f) (f_num g')) as [E1|E1]; [assert (g' = f) as -> by (eapply wf_num_inj; eauto); assumption|].
        destruct (wf_compat sc m f g' W Hf Hg') as [_ C]; [congruence|]. destruct C as [_ C]; [congruence|exact C]. }
      unfold is_oneof in Og'. destruct (f_ty g') as [[] k'|] eqn:Tg'; try discriminate. exists k'. split; [reflexivity|]. intros En'.
      assert (g' = g) as -> by (eapply wf_num_inj; eauto). rewrite Tg' in Tg. injection Tg as <-. exact Rx. }
  rewrite (bind_some _ _ _ _ _ E). assert (i < length r)%nat as Lir by congruence.
  destruct (put_sim m s0 s r hr ra r' i s2 x t' bn0 H Lir G2) as (s' & hr' & E' & G' & O' & Hh).
  { intros cur Ec. rewrite (slot_some ra i s hs w Nr) in Ec. injection Ec as <-. exact Hx. }
  rewrite (bind_some _ _ _ _ _ E'). rewrite <- Ey.
  destruct (IH s' (list_set r i t') hr' (list_set r' i y')) as (s3 & r1 & hr1 & E3 & H3).
  - intros j Hj. apply I. now right.
  - split; [exact G'|]. split; [exact O'|]. eapply hc_hid; [exact Rx|exact Hh].
  - exists s3, r1, hr1. split; [exact E3|exact H3].
Qed.

Lemma unk_sim s r hr r' : hc s r hr ra r' ->
  exists s' hr1, hclone_unk (md_of sc m) a ra s = Some (tt, s') /\ goes none s0 s' /\
    own (heap s') (since s0 s') (VMsg r (if md_keep (md_of sc m) then u else []) hr1) (HPtr ra) /\
    rm m (VMsg r (if md_keep (md_of sc m) then u else []) hr1) (VMsg r' (if md_keep (md_of sc m) then u else []) []).
Proof.
  intros H. pose proof H as (G & O & R). destruct (source_at s G) as (as_ & aw & Na & Ua & _). unfold hclone_unk. destruct (md_keep (md_of sc m)).
  2:{ exists s, hr. split; [reflexivity|]. auto. }
  unfold bind at 1, get_unk, bind at 1, load. rewrite Na. cbn [ret].
  assert (bytes_of aw s = Some (u, s)) as Eb.
  { destruct Ua as [[-> ->]|Ua]; [reflexivity|]. destruct aw; try contradiction. destruct Ua as (_ & _ & bs & N & [L E] & _). cbn [bytes_of]. unfold bind, load. rewrite N.
    replace (Nat.leb _ _) with true by (symmetry; apply Nat.leb_le; lia). cbn [ret]. now rewrite E. }
  rewrite (bind_some _ _ _ _ _ Eb). destruct (0 <? zlen u) eqn:Zu.
  - rewrite (bind_some _ _ _ _ _ (alloc_some _ _)). set (s1 := with_heap s (heap s ++ [OBytes u])). set (b := length (heap s)).
    assert (goes none s s1) as G1 by apply goes_alloc. assert (base (since s0 s) s) as Bs by (apply base_since; [exact bn0|exact G]).
    destruct (unk_focus true true false none _ _ _ _ _ _ O) as (ra' & hs & w & U & [= <-] & Pa & N & HU & Ou & Fin).
    destruct (proj1 Bs ra Pa) as [La Ula].
    assert (nth_error (heap s1) ra = Some (OMsg hs w)) as N1 by (cbn [s1 with_heap heap]; now rewrite nth_error_app_old).
    assert (set_unk ra (HSlice b 0 (length u) (length u)) s1 = Some (tt, with_heap s1 (list_set (heap s1) ra (OMsg hs (HSlice b 0 (length u) (length u)))))) as Es.
    { unfold set_unk, bind, load. rewrite N1. apply store_some. eapply at_lt; eauto. }
    rewrite Es. set (s2 := with_heap s1 (list_set (heap s1) ra (OMsg hs (HSlice b 0 (length u) (length u))))).
    assert (goes none s0 s1) as G01 by (eapply none_trans; eauto). assert (since s0 s1 ra) as Hr1 by exact (since_left _ _ _ _ G1 Pa).
    exists s2, hr. split; [reflexivity|]. split; [apply write_since; [exact bn0|exact G01|exact Hr1]|]. split; [|now apply (rm_unknown sc m r [])].
    assert (b <> ra) as Nb by (unfold b; lia).
    eapply own_mono; [|apply (Fin (heap s2) (newb s s1) u (HSlice b 0 (length u) (length u)))].
    + intros c [Hc|Hc]; apply since_set; [exact (since_left _ _ _ _ G1 Hc)|exact (since_right _ _ _ _ G Hc)].
    + cbn [s2 with_heap heap]. eapply set_at; eauto.
    + intros c Hc. exact (since_apart _ _ _ _ bn0 G G1 Hc).
    + intros c Hc Nc _. cbn [s2 with_heap heap]. rewrite nth_error_set_neq by congruence. cbn [s1 with_heap heap]. rewrite nth_error_app_old; [reflexivity|]. exact (proj1 (proj1 Bs c Hc)).
    + intros c [].
    + right. cbn [owns_bytes]. split; [right; unfold s1; rewrite newb_alloc; apply Nat.eqb_refl|]. split; [lia|]. exists u. split; [|split; [split; [lia|cbn [skipn]; now rewrite firstn_all]|lia]].
      cbn [s2 with_heap heap]. rewrite nth_error_set_neq by congruence. cbn [s1 with_heap heap]. unfold b. rewrite nth_error_app2, Nat.sub_diag by lia. reflexivity.
  - assert (u = []) as -> by (destruct u; [reflexivity|rewrite zlen_cons in Zu; pose proof (zlen_nonneg l); lia]). exists s, hr. split; [reflexivity|]. auto.
Qed.
End Source.

Lemma clone_hid_nil slots fs : clone_hid slots fs [] = [].
Proof. unfold clone_hid. induction fs as [|f fs IH]; [reflexivity|]. cbn [fold_left]. destruct (f_ty f) as [[| | |p|] k|kk vk]; try exact IH. destruct (slot slots (f_slot f)); exact IH. Qed.
Lemma alloc_sim s m : base none s -> md_foreign (md_of sc m) = false ->
  exists s1 a r hr, Alloc sc m s = Some (a, s1) /\ goes none s s1 /\ own (heap s1) (since s s1) (VMsg r [] hr) (HPtr a) /\ rm m (VMsg r [] hr) (new_msg (md_of sc m)).
Proof.
  intros B F. destruct (fresh_sim true true false none grow pc pt pr sc s (md_of sc m) m B) as (s1 & a & x & E & G & O & Hx).
  assert (Alloc sc m s = Some (a, s1)) as Ea.
  { apply acc_some. rewrite <- E. unfold hfresh. destruct (md_pool (md_of sc m)) eqn:P; [reflexivity|]. unfold Alloc. rewrite P. reflexivity. }
  assert (rs m x (new_msg (md_of sc m))) as R.
  { destruct Hx as [->|Hx]; [|now apply PR]. apply rs_new; auto; [left; eauto|apply text_nil]. }
  inversion R as [| |? ? ? F' Rm]; subst; [congruence|]. destruct (rm_vmsg sc text (keeps sc) m x _ Rm) as (r & u & hr & r' & h' & -> & Ex).
  assert (u = []) as -> by (unfold new_msg in Ex; congruence). exists s1, a, r, hr. auto.
Qed.
Lemma body_sim m Q s t v y : md_foreign (md_of sc m) = false -> base Q s -> own (heap s) Q t v -> rs m t y -> (vdepth t <= n)%nat -> (vdepth y <= n')%nat -> wt_ptrmsg sc m y ->
  exists s' x t', hclone_body sc uclone hrec m v s = Some (x, s') /\ goes none s s' /\ own (heap s') (since s s') t' x /\ rs m t' (clone_body sc rec (new_msg (md_of sc m)) m y).
Proof.
  intros F B O R Dt Dy Ty. inversion R as [|? ? ? F'|? ? ? F' Rm]; subst; [|congruence|].
  { apply vnil_own in O. subst v. exists s, HNil, VNil. split; [reflexivity|]. split; [apply goes_refl|]. split; [reflexivity|]. apply rs_nil. }
  destruct (rm_vmsg sc text (keeps sc) m t y Rm) as (ss & u & h & ss' & h' & -> & ->). pose proof O as O'. apply src_msg in O' as (a & hs & w & -> & N & Qa & _ & _).
  destruct Ty as [Ty|Ty]; [discriminate|]. inversion Ty as [? ? ? ? L' Ts Bu]; subst. inversion Rm as [? ? ? ? ? ? L _ Rs _ _ _]; subst.
  pose proof (base_none _ _ _ _ _ _ _ _ _ B) as Bn. destruct (alloc_sim s m Bn F) as (s1 & ra & r & hr & Ea & G1 & O1 & R1).
  cbn [hclone_body]. cbv zeta. rewrite (bind_some _ _ _ _ _ Ea).
  assert (forall i, (vdepth (slot ss i) < n)%nat) as Ds by (intros i; pose proof (depth_slot ss i u h); lia).
  assert (forall i, (vdepth (slot ss' i) < n')%nat) as Ds' by (intros i; pose proof (depth_slot ss' i u h'); lia).
  set (fs := filter (fun f => negb (is_oneof f)) (md_fields (md_of sc m))).
  destruct (members_sim m Q s a ra ss u h ss' B O L Rs Ts Ds Ds' fs s1 r hr (zero_slots (md_of sc m))) as (s2 & r2 & hr2 & E2 & H2).
  - intros f Hf. now apply filter_In in Hf.
  - intros f Hf. apply filter_In in Hf as [_ No]. now apply negb_true_iff in No.
  - apply slots_nodup; auto.
  - intros f Hf. apply filter_In in Hf as [Hf _]. now apply slot_zero.
  - split; [exact G1|]. split; [exact O1|exact R1].
  - rewrite (bind_some _ _ _ _ _ E2).
    destruct (oneofs_sim m Q s a ra ss u h ss' B O L Rs Ts Ds Ds' (oneof_slots [] (md_fields (md_of sc m))) s2 r2 hr2 (clone_assign ss' (clone_field sc rec) fs (zero_slots (md_of sc m)))) as (s3 & r3 & hr3 & E3 & H3); [|exact H2|].
    { intros i Hi. apply oneof_slots_in in Hi as (_ & f & Hf & Of & Es). eauto. }
    rewrite (bind_some _ _ _ _ _ E3).
    destruct (unk_sim m Q s a ra ss u h B O L s3 r3 hr3 _ H3) as (s4 & hr4 & E4 & G4 & O4 & R4). rewrite (bind_some _ _ _ _ _ E4).
    exists s4, (HPtr ra), (VMsg r3 (if md_keep (md_of sc m) then u else []) hr4). split; [reflexivity|]. split; [exact G4|]. split; [exact O4|].
    apply rs_msg; [exact F|]. cbn [clone_body new_msg]. rewrite clone_hid_nil.
    replace (if md_keep (md_of sc m) then if 0 <? zlen u then u else [] else []) with (if md_keep (md_of sc m) then u else []); [exact R4|].
    destruct (md_keep (md_of sc m)); [|reflexivity]. destruct (0 <? zlen u) eqn:Zu; [reflexivity|]. destruct u; [reflexivity|rewrite zlen_cons in Zu; pose proof (zlen_nonneg u); lia].
Qed.
End Level.

(** * CloneVT *)
Theorem clone_sim n n' : forall path m Q s t v y, md_foreign (md_of sc m) = false -> base Q s -> own (heap s) Q t v -> rs m t y -> (vdepth t < n)%nat -> (vdepth y < n')%nat -> wt_ptrmsg sc m y ->
  exists s' x t', hclone_msg sc uclone n m v s = Some (x, s') /\ goes none s s' /\ own (heap s') (since s s') t' x /\
    rs m t' (clone_msg sc (fun _ m => new_msg (md_of sc m)) n' path m y).
Proof.
  revert n'. induction n as [|n IH]; intros n' path m Q s t v y F B O R Dt Dy Ty; [lia|]. destruct n' as [|n']; [lia|]. cbn [hclone_msg clone_msg].
  apply (body_sim n n' (hclone_msg sc uclone n) (fun st => clone_msg sc (fun _ m => new_msg (md_of sc m)) n' (st :: path))) with (Q := Q) (t := t); auto; try lia.
  intros st m0 Q0 s0 t0 v0 y0 F0 B0 O0 R0 D0 D0' T0. apply (IH n' (st :: path) m0 Q0 s0 t0 v0 y0); auto.
Qed.
End Sim.
