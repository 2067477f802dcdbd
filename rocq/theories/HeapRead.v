(** The memory CloneVT makes holds the tree Clone.v describes. *)
From Coq Require Import ZArith List Bool Lia.
From Verif Require Import Base BaseFacts Schema Value Helpers Unmarshal Equal Clone Typing MarshalFacts MarshalTop SameFacts OrderFacts TargetFacts CloneSpec CloneFacts Heap HeapSpec HeapFacts.
Import ListNotations.
Open Scope Z_scope.

(** * Trees *)
Section ValInd.
Variable Q : val -> Prop.
Hypothesis H1 : Q VNil. Hypothesis H2 : forall z, Q (VInt z). Hypothesis H3 : forall s, Q (VStr s). Hypothesis H4 : forall s, Q (VBytes s).
Hypothesis H5 : forall x, Q x -> Q (VPtr x). Hypothesis H6 : forall l, (forall x, In x l -> Q x) -> Q (VList l).
Hypothesis H7 : forall l, (forall e, In e l -> Q (fst e) /\ Q (snd e)) -> Q (VMap l). Hypothesis H8 : forall n x, Q x -> Q (VOneof n x).
Hypothesis H9 : forall l u h, (forall x, In x l -> Q x) -> Q (VMsg l u h). Hypothesis H10 : forall o s, Q (VRefS o s). Hypothesis H11 : forall o s, Q (VRefB o s).
Fixpoint val_tree_ind (v : val) : Q v :=
  match v with
  | VNil => H1 | VInt z => H2 z | VStr s => H3 s | VBytes s => H4 s | VPtr x => H5 x (val_tree_ind x)
  | VList l => H6 l ((fix all (l : list val) : forall x, In x l -> Q x :=
      match l with [] => fun x (H : In x []) => match H with end | y :: l' => fun x H => match H with or_introl E => eq_ind y Q (val_tree_ind y) x E | or_intror H' => all l' x H' end end) l)
  | VMap l => H7 l ((fix all (l : list (val * val)) : forall e, In e l -> Q (fst e) /\ Q (snd e) :=
      match l with [] => fun x (H : In x []) => match H with end
      | (a, b) :: l' => fun x H => match H with or_introl E => eq_ind (a, b) (fun e => Q (fst e) /\ Q (snd e)) (conj (val_tree_ind a) (val_tree_ind b)) x E | or_intror H' => all l' x H' end end) l)
  | VOneof n x => H8 n x (val_tree_ind x)
  | VMsg l u h => H9 l u h ((fix all (l : list val) : forall x, In x l -> Q x :=
      match l with [] => fun x (H : In x []) => match H with end | y :: l' => fun x H => match H with or_introl E => eq_ind y Q (val_tree_ind y) x E | or_intror H' => all l' x H' end end) l)
  | VRefS o s => H10 o s | VRefB o s => H11 o s
  end.
End ValInd.

Lemma Forall2_imp {A B} (R R' : A -> B -> Prop) l l' : (forall x y, In x l -> R x y -> R' x y) -> Forall2 R l l' -> Forall2 R' l l'.
Proof. intros H F. induction F; constructor; [apply H; [now left|assumption]|]. apply IHF. intros; apply H; [now right|assumption]. Qed.
Lemma reads_all P V h l : forall es, (fix all (l : list val) (es : list hval) {struct l} : Prop :=
  match l, es with [], [] => True | x :: l', e :: es' => reads P V h x e /\ all l' es' | _, _ => False end) l es <-> Forall2 (reads P V h) l es.
Proof.
  induction l as [|x l IH]; intros [|e es]; split; intros H; try (now constructor); try (now inversion H); try (now destruct H).
  - destruct H as [H1 H2]. constructor; [exact H1|]. now apply IH.
  - inversion H; subst. split; [assumption|]. now apply IH.
Qed.
Definition reads_entry P V h (t : val * val) (e : hval * hval) : Prop := reads P V h (fst t) (fst e) /\ reads P V h (snd t) (snd e).
Lemma reads_entries P V h l : forall es, (fix all (l : list (val * val)) (es : list (hval * hval)) {struct l} : Prop :=
  match l, es with [], [] => True | (k, x) :: l', (e, y) :: es' => reads P V h k e /\ reads P V h x y /\ all l' es' | _, _ => False end) l es <-> Forall2 (reads_entry P V h) l es.
Proof.
  induction l as [|[k x] l IH]; intros [|[e y] es]; split; intros H; try (now constructor); try (now inversion H); try (now destruct H).
  - destruct H as (H1 & H2 & H3). constructor; [split; assumption|]. now apply IH.
  - inversion H as [|? ? ? ? [K1 K2] K3]; subst. split; [assumption|]. split; [assumption|]. now apply IH.
Qed.
Lemma reads_list P V h l v : reads P V h (VList l) v <-> exists a off len cap es es', v = HSlice a off len cap /\ P a /\ nth_error h a = Some (OArr es) /\ slice es off len es' /\ Forall2 (reads P V h) l es'.
Proof. split; intros (a & off & len & cap & es & es' & E & Pa & N & S & F); exists a, off, len, cap, es, es'; (split; [exact E|]; split; [exact Pa|]; split; [exact N|]; split; [exact S|]; now apply reads_all). Qed.
Lemma reads_map P V h l v : reads P V h (VMap l) v <-> exists a es, v = HMap a /\ P a /\ nth_error h a = Some (OMap es) /\ Forall2 (reads_entry P V h) l es.
Proof. split; intros (a & es & E & Pa & N & F); exists a, es; (split; [exact E|]; split; [exact Pa|]; split; [exact N|]; now apply reads_entries). Qed.
Definition reads_unk P h (unk : list Z) (u : hval) : Prop := (u = HNil /\ unk = []) \/ reads_bytes P h unk u.
Lemma reads_msg P V h l unk hid v : reads P V h (VMsg l unk hid) v <-> hid = [] /\ exists a hs u, v = HPtr a /\ P a /\ nth_error h a = Some (OMsg hs u) /\ reads_unk P h unk u /\ Forall2 (reads P V h) l hs.
Proof. split; (intros (H & a & hs & u & E & Pa & N & U & F); split; [exact H|]; exists a, hs, u; split; [exact E|]; split; [exact Pa|]; split; [exact N|]; split; [exact U|]; now apply reads_all). Qed.

(** A tree stays where it is as long as its objects do. *)
Section Mono.
Variables (P V P' V' : nat -> Prop) (h h' : list obj).
Hypothesis HP : forall a o, P a -> nth_error h a = Some o -> P' a /\ nth_error h' a = Some o.
Hypothesis HV : forall a o, V a -> nth_error h a = Some o -> V' a /\ nth_error h' a = Some o.
Lemma bytes_mono s v : reads_bytes P h s v -> reads_bytes P' h' s v.
Proof. destruct v; cbn [reads_bytes]; auto. intros (Pa & b & N & S). destruct (HP _ _ Pa N) as [Pa' N']. split; auto. exists b. auto. Qed.
Lemma unk_mono s v : reads_unk P h s v -> reads_unk P' h' s v.
Proof. intros [H|H]; [now left|right]. now apply bytes_mono. Qed.
Lemma reads_mono t : forall v, reads P V h t v -> reads P' V' h' t v.
Proof.
  induction t using val_tree_ind; intros v R; auto.
  - cbn [reads] in *. destruct v; cbn [reads_string] in *; auto. destruct R as (Va & b & N & S). destruct (HV _ _ Va N) as [Va' N']. split; auto. exists b. auto.
  - cbn [reads] in *. now apply bytes_mono.
  - cbn [reads] in *. destruct R as (a & y & E & Pa & N & R). destruct (HP _ _ Pa N). exists a, y. auto.
  - rewrite reads_list in *. destruct R as (a & off & len & cap & es & es' & E & Pa & N & S & F). destruct (HP _ _ Pa N) as [Pa' N']. exists a, off, len, cap, es, es'. repeat (split; auto).
    eapply Forall2_imp; [|exact F]. intros x y Hx Hy. cbn beta in *. eauto.
  - rewrite reads_map in *. destruct R as (a & es & E & Pa & N & F). destruct (HP _ _ Pa N) as [Pa' N']. exists a, es. repeat (split; auto).
    eapply Forall2_imp; [|exact F]. intros x y Hx [K1 K2]. destruct (H x Hx) as [Q1 Q2]. split; auto.
  - cbn [reads] in *. destruct R as (a & y & E & Pa & N & R). destruct (HP _ _ Pa N). exists a, y. auto.
  - rewrite reads_msg in *. destruct R as (Hh & a & hs & w & E & Pa & N & U & F). destruct (HP _ _ Pa N) as [Pa' N']. split; auto. exists a, hs, w. split; [auto|]. split; [auto|]. split; [auto|]. split; [now apply unk_mono|].
    eapply Forall2_imp; [|exact F]. intros x y Hx Hy. cbn beta in *. eauto.
Qed.
End Mono.

(** * Heaps that grow *)
Definition ext (h h' : list obj) : Prop := (length h <= length h')%nat /\ forall a, (a < length h)%nat -> nth_error h' a = nth_error h a.
Definition extx (r : nat) (h h' : list obj) : Prop := (length h <= length h')%nat /\ forall a, (a < length h)%nat -> a <> r -> nth_error h' a = nth_error h a.
Lemma ext_refl h : ext h h. Proof. split; auto. Qed.
Lemma ext_trans h1 h2 h3 : ext h1 h2 -> ext h2 h3 -> ext h1 h3.
Proof. intros [L1 E1] [L2 E2]. split; [lia|]. intros a La. rewrite E2 by lia. auto. Qed.
Lemma extx_trans r h1 h2 h3 : extx r h1 h2 -> extx r h2 h3 -> extx r h1 h3.
Proof. intros [L1 E1] [L2 E2]. split; [lia|]. intros a La N. rewrite E2 by (auto; lia). auto. Qed.
Lemma ext_extx r h h' : ext h h' -> extx r h h'.
Proof. intros [L E]. split; auto. Qed.
Lemma extx_refl r h : extx r h h. Proof. apply ext_extx, ext_refl. Qed.
Lemma ext_app h n : ext h (h ++ n).
Proof. split; [rewrite app_length; lia|]. intros a L. now apply nth_error_app1. Qed.
Lemma extx_set r h o : extx r h (list_set h r o).
Proof. split; [now rewrite list_set_length|]. intros a L N. apply nth_error_set_neq. auto. Qed.
Lemma extx_new h h1 h' : ext h h1 -> extx (length h) h1 h' -> ext h h'.
Proof. intros [L1 E1] [L2 E2]. split; [lia|]. intros a La. rewrite E2 by lia. auto. Qed.

Definition does {A} (x : M A) (s : mem) (Q : A -> mem -> Prop) : Prop := exists a s', x s = Some (a, s') /\ Q a s'.
Lemma does_ret {A} (a : A) s (Q : A -> mem -> Prop) : Q a s -> does (ret a) s Q.
Proof. intros H. exists a, s. auto. Qed.
Lemma does_bind {A B} (x : M A) (k : A -> M B) s Q R : does x s Q -> (forall a s', Q a s' -> does (k a) s' R) -> does (bind x k) s R.
Proof. intros (a & s1 & E & Qa) K. destruct (K a s1 Qa) as (b & s2 & E2 & Rb). exists b, s2. unfold bind. now rewrite E. Qed.
Lemma does_conseq {A} (x : M A) s (Q R : A -> mem -> Prop) : does x s Q -> (forall a s', Q a s' -> R a s') -> does x s R.
Proof. intros (a & s' & E & Qa) H. exists a, s'. auto. Qed.
Lemma does_load a s o : nth_error (heap s) a = Some o -> does (load a) s (fun o' s' => o' = o /\ s' = s).
Proof. intros N. exists o, s. unfold load. rewrite N. auto. Qed.
Lemma does_store a s o : (a < length (heap s))%nat -> does (store a o) s (fun _ s' => s' = mkMem (list_set (heap s) a o) (free s) (picks s)).
Proof. intros L. exists tt. eexists. unfold store. rewrite (proj2 (Nat.ltb_lt _ _) L). split; reflexivity. Qed.
Lemma does_alloc o s : does (alloc o) s (fun a s' => a = length (heap s) /\ s' = mkMem (heap s ++ [o]) (free s) (picks s)).
Proof. eexists. eexists. split; [reflexivity|]. auto. Qed.
Lemma does_now {A B} (x : M A) (k : A -> M B) s a s' R : x s = Some (a, s') -> does (k a) s' R -> does (bind x k) s R.
Proof. intros E (b & s2 & E2 & Rb). exists b, s2. unfold bind. now rewrite E. Qed.
(** Loads and stores of known objects. *)
Lemma does_on {B} a s o (k : obj -> M B) R : nth_error (heap s) a = Some o -> does (k o) s R -> does (bind (load a) k) s R.
Proof. intros N H. eapply does_bind; [apply (does_load a s o N)|]. intros o' s' [-> ->]. exact H. Qed.

Section Content.
Variable sc : schema.
Variable uclone : nat -> hval -> list obj -> option (hval * list obj).
Hypothesis W : wf_schema sc = true.
Hypothesis UC : up_clone_ok sc.
Hypothesis UH : up_holds sc uclone.
Variable h0 : list obj.
Variable V : nat -> Prop.
Hypothesis VO : forall a, V a -> (a < length h0)%nat.
Definition src (t : val) (v : hval) : Prop := reads (fun _ => True) V h0 t v.
Definition based (s : mem) : Prop := ext h0 (heap s) /\ free s = [].
Definition above (n a : nat) : Prop := (n <= a)%nat.
Definition made (s : mem) (t : val) (x : hval) (s' : mem) : Prop := ext (heap s) (heap s') /\ free s' = [] /\ reads (above (length (heap s))) V (heap s') t x.
(** What was read above [n] is still there. *)
Lemma later n r h h' t x : extx r h h' -> (r < n)%nat -> (length h0 <= r)%nat -> ext h0 h -> reads (above n) V h t x -> reads (above n) V h' t x.
Proof.
  intros [L E] Lr Lr0 [L0 E0]. apply reads_mono.
  - intros a o Pa N. split; auto. rewrite E; auto; [eapply nth_error_lt; eauto|]. unfold above in Pa. lia.
  - intros a o Va N. split; auto. rewrite E; auto; [eapply nth_error_lt; eauto|]. apply VO in Va. lia.
Qed.
Lemma later_ext n h h' t x : ext h h' -> reads (above n) V h t x -> reads (above n) V h' t x.
Proof. intros [L E]. apply reads_mono; intros a o Pa N; (split; auto; rewrite E; auto; eapply nth_error_lt; eauto). Qed.
Lemma lower n n' h t x : (n' <= n)%nat -> reads (above n) V h t x -> reads (above n') V h t x.
Proof. intros L. apply reads_mono; auto. intros a o Pa N. split; auto. unfold above in *. lia. Qed.
Lemma src_now s t v : based s -> src t v -> reads (fun _ => True) V (heap s) t v.
Proof. intros [[L E] _]. apply reads_mono; intros a o Pa N; (split; auto; rewrite E; auto; eapply nth_error_lt; eauto). Qed.
Lemma based_at s a o : based s -> nth_error h0 a = Some o -> nth_error (heap s) a = Some o.
Proof. intros [[L E] _] N. rewrite E; auto. eapply nth_error_lt; eauto. Qed.
Lemma based_extx s s' r : based s -> extx r (heap s) (heap s') -> (length h0 <= r)%nat -> free s' = [] -> based s'.
Proof. intros [[L E] F] [L' E'] Lr F'. split; auto. split; [lia|]. intros a La. rewrite E' by lia. auto. Qed.
Lemma based_ext s s' : based s -> ext (heap s) (heap s') -> free s' = [] -> based s'.
Proof. intros [E F] E' F'. split; auto. eapply ext_trans; eauto. Qed.
Lemma based_len s : based s -> (length h0 <= length (heap s))%nat.
Proof. intros [[L _] _]. exact L. Qed.

Lemma slice_all {A} (l : list A) : slice l 0 (length l) l.
Proof. split; [lia|]. cbn [skipn]. symmetry. apply firstn_all. Qed.
Lemma does_bytes s t v : based s -> (t = VNil \/ exists b, t = VBytes b) -> src t v -> does (bytes_of v) s (fun b s' => b = vbytes t /\ s' = s).
Proof.
  intros B T R. destruct T as [->|[b ->]].
  - cbn [src reads] in R. unfold src in R. cbn in R. subst v. apply does_ret. auto.
  - unfold src in R. cbn [reads] in R. destruct v; try destruct R. cbn [bytes_of]. destruct H0 as (b' & N & S1 & S2). eapply does_on; [eapply based_at; eauto|]. cbn beta iota. rewrite (proj2 (Nat.leb_le _ _) S1). apply does_ret. auto.
Qed.
Lemma does_clone_bytes s t v : based s -> (t = VNil \/ exists b, t = VBytes b) -> src t v -> does (hclone_bytes v) s (made s (VBytes (vbytes t))).
Proof.
  intros B T R. eapply does_bind; [apply (does_bytes s t v B T R)|]. intros b s' [-> ->]. eapply does_bind; [apply does_alloc|]. intros a s' [-> ->]. apply does_ret. split; [apply ext_app|]. split; [apply B|]. cbn [reads reads_bytes heap].
  split; [unfold above; lia|]. exists (vbytes t). rewrite nth_error_app2, Nat.sub_diag by lia. split; [reflexivity|]. apply slice_all.
Qed.
Lemma does_num s z v : based s -> src (VInt z) v -> does (scalar v) s (made s (VInt z)).
Proof. intros B R. unfold src in R. cbn [reads] in R. subst v. apply does_ret. split; [apply ext_refl|]. split; [apply B|reflexivity]. Qed.
Lemma does_str s b v : based s -> src (VStr b) v -> does (scalar v) s (made s (VStr b)).
Proof.
  intros B R. pose proof (src_now _ _ _ B R) as R'. cbn [reads] in R'. destruct v; try destruct R'; apply does_ret; (split; [apply ext_refl|]; split; [apply B|]); cbn [reads reads_string]; auto.
Qed.
Section Level.
Variable n : nat.
Variable rec : nat -> hval -> M hval.
Variable rect : step -> nat -> val -> val.
Hypothesis REC : forall st m t v s, md_foreign (md_of sc m) = false -> wt_ptrmsg sc m t -> (vdepth t < n)%nat -> src t v -> based s -> does (rec m v) s (made s (rect st m t)).

Lemma does_singular st k t v s : wt_elem sc k t -> (vdepth t < n)%nat -> src t v -> based s -> does (hclone_singular sc uclone rec k v) s (made s (cloneFieldSingular sc rect st k t)).
Proof.
  intros T D R B. unfold hclone_singular, cloneFieldSingular.
  assert (forall m, wt_ptrmsg sc m t -> does (if md_foreign (md_of sc m) then hclone_up uclone m v else rec m v) s (made s (if md_foreign (md_of sc m) then up_clone (sc_up sc) m t else rect st m t))) as SUB.
  { intros m Tm. destruct (md_foreign (md_of sc m)) eqn:F; [|now apply REC]. destruct (UH m v (heap s) t V F Tm (src_now _ _ _ B R)) as (r & new & U & Rr). exists r. eexists. split; [unfold hclone_up; rewrite U; reflexivity|].
    split; [apply ext_app|]. split; [apply B|]. exact Rr. }
  inversion T as [? z Rz|? Rs|? Rs| |? m Sm|? m ? Sm Wm]; subst.
  - destruct k; try discriminate; now apply does_num.
  - now apply does_str.
  - apply does_clone_bytes; eauto.
  - apply does_clone_bytes; eauto.
  - destruct k; try discriminate; cbn [classify]; injection Sm as ->; (apply SUB; now left).
  - destruct k; try discriminate; cbn [classify]; injection Sm as ->; (apply SUB; now right).
Qed.

Lemma does_elems sl k a ts : (length h0 <= a)%nat -> forall l dn dts s i, length dn = i -> based s -> nth_error (heap s) a = Some (OArr (dn ++ repeat HNil (length l))) ->
  Forall2 (reads (above (S a)) V (heap s)) dts dn -> Forall2 src ts l -> (forall t, In t ts -> wt_elem sc k t /\ (vdepth t < n)%nat) ->
  does (hclone_elems sc uclone rec k a i l) s (fun _ s' => extx a (heap s) (heap s') /\ free s' = [] /\
    exists all, nth_error (heap s') a = Some (OArr all) /\ length all = (i + length l)%nat /\ Forall2 (reads (above (S a)) V (heap s')) (dts ++ clone_list sc rect sl k i ts) all).
Proof.
  intros La. induction ts as [|t ts IH]; intros l dn dts s i Li B N F1 F2 T; inversion F2 as [|? v ? l' R F2']; subst; cbn [hclone_elems clone_list].
  - apply does_ret. split; [apply extx_refl|]. split; [apply B|]. exists dn. cbn [length repeat] in N. rewrite app_nil_r in *. cbn [length]. split; auto.
  - destruct (T t (or_introl eq_refl)) as [Wt Dt]. eapply does_bind; [apply (does_singular (SElem sl (length dn)) k t v s Wt Dt R B)|]. intros x s1 (E1 & Fr1 & R1). pose proof (based_ext _ _ B E1 Fr1) as B1.
    pose proof (nth_error_lt _ _ _ N) as Lt. assert (nth_error (heap s1) a = Some (OArr (dn ++ repeat HNil (length (v :: l'))))) as N1 by (destruct E1 as [_ E1]; rewrite E1; auto).
    eapply does_bind; [unfold set_elem; eapply does_on; [exact N1|]; apply does_store; destruct E1; lia|]. intros [] s2 ->. cbn [length repeat] in *.
    assert (list_set (dn ++ HNil :: repeat HNil (length l')) (length dn) x = (dn ++ [x]) ++ repeat HNil (length l')) as LS. { rewrite <- app_assoc. clear. induction dn as [|d dn IHd]; cbn [app length list_set]; auto. now rewrite IHd. }
    rewrite LS in *. set (s2 := mkMem (list_set (heap s1) a (OArr ((dn ++ [x]) ++ repeat HNil (length l')))) (free s1) (picks s1)).
    assert (extx a (heap s1) (heap s2)) as X2 by apply extx_set. assert (based s2) as B2 by (eapply based_extx; eauto).
    assert (forall t x, reads (above (S a)) V (heap s1) t x -> reads (above (S a)) V (heap s2) t x) as K by (intros; eapply later; [exact X2|lia|exact La|apply B1|assumption]).
    eapply does_conseq; [apply (IH l' (dn ++ [x]) (dts ++ [cloneFieldSingular sc rect (SElem sl (length dn)) k t]) s2 (S (length dn)))|].
    + rewrite app_length. cbn [length]. lia.
    + exact B2.
    + cbn [heap s2]. rewrite nth_error_set_eq; auto. destruct E1; lia.
    + apply Forall2_app.
      * eapply Forall2_imp; [|exact F1]. intros ? ? _ Q. apply K. eapply later_ext; eauto.
      * constructor; [|constructor]. apply K. eapply lower; [|exact R1]. lia.
    + exact F2'.
    + intros; apply T; now right.
    + intros [] s3 (X3 & Fr3 & all & Na & Ll & Fa). split; [eapply extx_trans; [|exact X3]; eapply extx_trans; [apply ext_extx; exact E1|exact X2]|]. split; auto. exists all. split; auto. split; [cbn [length] in *; lia|].
      rewrite <- app_assoc in Fa. exact Fa.
Qed.
Lemma scalar_key kk t v s : key_kind kk = true -> wt_elem sc kk t -> src t v -> based s -> does (scalar v) s (made s t).
Proof.
  intros K T R B. inversion T as [? z Rz|? Rs|? Rs| |? m Sm|? m ? Sm Wm]; subst; try discriminate; [now apply does_num|now apply does_str| |]; destruct kk; discriminate.
Qed.
Lemma does_entries sl kk vk a ts : key_kind kk = true -> (length h0 <= a)%nat -> forall l dn dts s, based s -> nth_error (heap s) a = Some (OMap dn) ->
  Forall2 (reads_entry (above (S a)) V (heap s)) dts dn -> Forall2 (reads_entry (fun _ => True) V h0) ts l -> (forall e, In e ts -> wt_elem sc kk (fst e) /\ wt_elem sc vk (snd e) /\ (vdepth (snd e) < n)%nat) ->
  does (hclone_entries sc uclone rec vk a l) s (fun _ s' => extx a (heap s) (heap s') /\ free s' = [] /\
    exists all, nth_error (heap s') a = Some (OMap all) /\ Forall2 (reads_entry (above (S a)) V (heap s')) (dts ++ map (fun e => (fst e, cloneFieldSingular sc rect (SKey sl (fst e)) vk (snd e))) ts) all).
Proof.
  intros KK La. induction ts as [|[tk t] ts IH]; intros l dn dts s B N F1 F2 T; inversion F2 as [|? [k v] ? l' [Rk R] F2']; subst; cbn [hclone_entries map].
  - apply does_ret. split; [apply extx_refl|]. split; [apply B|]. exists dn. rewrite app_nil_r in *. split; auto.
  - destruct (T _ (or_introl eq_refl)) as (Wk & Wt & Dt). cbn [fst snd] in *. eapply does_bind; [apply (scalar_key kk tk k s KK Wk Rk B)|]. intros k' s1 (E1 & Fr1 & R1). pose proof (based_ext _ _ B E1 Fr1) as B1.
    eapply does_bind; [apply (does_singular (SKey sl tk) vk t v s1 Wt Dt R B1)|]. intros x s2 (E2 & Fr2 & R2). pose proof (based_ext _ _ B1 E2 Fr2) as B2. pose proof (ext_trans _ _ _ E1 E2) as E12.
    pose proof (nth_error_lt _ _ _ N) as Lt. assert (nth_error (heap s2) a = Some (OMap dn)) as N2 by (destruct E12 as [_ E12]; rewrite E12; auto).
    eapply does_bind; [unfold set_key; eapply does_on; [exact N2|]; apply does_store; destruct E12; lia|]. intros [] s3 ->. set (s3 := mkMem (list_set (heap s2) a (OMap (dn ++ [(k', x)]))) (free s2) (picks s2)).
    assert (extx a (heap s2) (heap s3)) as X3 by apply extx_set. assert (based s3) as B3 by (eapply based_extx; eauto).
    assert (forall t x, reads (above (S a)) V (heap s2) t x -> reads (above (S a)) V (heap s3) t x) as K by (intros; eapply later; [exact X3|lia|exact La|apply B2|assumption]).
    eapply does_conseq; [apply (IH l' (dn ++ [(k', x)]) (dts ++ [(tk, cloneFieldSingular sc rect (SKey sl tk) vk t)]) s3)|].
    + exact B3.
    + cbn [heap s3]. rewrite nth_error_set_eq; auto. destruct E12; lia.
    + apply Forall2_app.
      * eapply Forall2_imp; [|exact F1]. intros ? ? _ [Q1 Q2]. split; apply K; eapply later_ext; eauto.
      * constructor; [|constructor]. split; cbn [fst snd]; apply K; [eapply later_ext; [exact E2|]; eapply lower; [|exact R1]; lia|eapply lower; [|exact R2]; destruct E1; lia].
    + exact F2'.
    + intros; apply T; now right.
    + intros [] s4 (X4 & Fr4 & all & Na & Fa). split; [eapply extx_trans; [|exact X4]; eapply extx_trans; [apply ext_extx; exact E12|exact X3]|]. split; auto. exists all. split; auto. rewrite <- app_assoc in Fa. exact Fa.
Qed.

Lemma nil_made s : based s -> made s VNil HNil s.
Proof. intros B. split; [apply ext_refl|]. split; [apply B|reflexivity]. Qed.
Lemma src_nil t v : src t v -> (t = VNil <-> v = HNil).
Proof.
  unfold src. intros R. split; intros ->; [exact R|]. destruct t; auto; cbn [reads reads_string reads_bytes] in R; try destruct R as (? & ? & ? & ? & ? & ? & R & _); try destruct R as (? & ? & R & _); try (now destruct R); try discriminate.
Qed.
Lemma src_case {A} t v (x y : A) : src t v -> (if is_nil t then x else y) = match v with HNil => x | _ => y end.
Proof. intros R. apply src_nil in R. destruct (is_nil t) eqn:E; [destruct t; try discriminate; rewrite (proj1 R eq_refl); reflexivity|]. destruct v; auto. rewrite (proj2 R eq_refl) in E. discriminate. Qed.
Lemma does_case {A B} t v (x y : A) (x' y' : M B) s Q : src t v -> (t = VNil -> does x' s (Q x)) -> (t <> VNil -> does y' s (Q y)) -> does (match v with HNil => x' | _ => y' end) s (Q (if is_nil t then x else y)).
Proof.
  intros R H1 H2. pose proof (src_nil _ _ R) as E. destruct (is_nil t) eqn:I.
  - destruct t; try discriminate. rewrite (proj1 E eq_refl). auto.
  - assert (t <> VNil) as N by (intros ->; discriminate). assert (v <> HNil) as N' by (intros Q'; apply N; now apply E). specialize (H2 N). destruct v; try congruence; exact H2.
Qed.
Lemma does_set_field f lb k t v s : f_ty f = TField lb k -> lb = LOptional \/ lb = LRequired -> src t v -> based s -> (vdepth t < n)%nat ->
  t = VNil \/ (exists y, t = VPtr y /\ (is_num k = true \/ k = KString) /\ wt_elem sc k y) \/ (is_num k = false /\ k <> KString /\ wt_elem sc k t) ->
  does (hclone_field sc uclone rec f v HNil) s (made s (clone_field sc rect f t VNil)).
Proof.
  intros Ty L R B D T.
  assert (hclone_field sc uclone rec f v HNil = match classify k with
      | CByt => match v with HNil => ret HNil | _ => hclone_bytes v end
      | CMsg m | CGrp m => if md_foreign (md_of sc m) then match v with HNil => ret HNil | _ => hclone_singular sc uclone rec k v end else hclone_singular sc uclone rec k v
      | _ => match v with HNil => ret HNil | HPtr a => let! o := load a in match o with OCell v => let! x := scalar v in let! a' := alloc (OCell x) in ret (HPtr a') | _ => fail end | _ => fail end end) as ->
    by (unfold hclone_field; rewrite Ty; destruct L; subst; reflexivity).
  assert (clone_field sc rect f t VNil = match classify k with
      | CByt => if is_nil t then VNil else VBytes (vbytes t)
      | CMsg m | CGrp m => if md_foreign (md_of sc m) then if is_nil t then VNil else cloneFieldSingular sc rect (SField (f_slot f)) k t else cloneFieldSingular sc rect (SField (f_slot f)) k t
      | _ => if is_nil t then VNil else VPtr (deref t) end) as ->
    by (unfold clone_field; rewrite Ty; destruct L; subst; reflexivity).
  destruct (sub_of k) as [m|] eqn:Sk.
  - assert (wt_elem sc k t) as Te.
    { destruct T as [->|[(y & -> & [N|N] & _)|(_ & _ & T)]]; [eapply wt_nilsub; eauto|destruct k; discriminate|subst; discriminate|exact T]. }
    pose proof (does_singular (SField (f_slot f)) k t v s Te D R B) as DS.
    assert (classify k = CMsg m \/ classify k = CGrp m) as CK by (destruct k; try discriminate; injection Sk as ->; auto).
    destruct CK as [-> | ->]; (destruct (md_foreign (md_of sc m)); [|exact DS]; apply (does_case t v VNil _ _ _ s (fun y => made s y) R); intros Nt; [apply does_ret; now apply nil_made|exact DS]).
  - destruct (is_num k) eqn:Nk.
    + assert (does (match v with HNil => ret HNil | HPtr a => let! o := load a in match o with OCell v => let! x := scalar v in let! a' := alloc (OCell x) in ret (HPtr a') | _ => fail end | _ => fail end) s (made s (if is_nil t then VNil else VPtr (deref t)))) as G.
      { destruct T as [->|[(y & -> & _ & T)|(N1 & _)]]; [rewrite (proj1 (src_nil _ _ R) eq_refl); apply does_ret; now apply nil_made| |discriminate].
        destruct (wt_elem_num sc k y Nk T) as (z & -> & _). unfold src in R. cbn [reads] in R. destruct R as (a & y & -> & _ & N & ->). eapply does_on; [eapply based_at; eauto|]. cbn [scalar].
        eapply does_now; [reflexivity|]. eapply does_bind; [apply does_alloc|]. intros a' s' [-> ->]. apply does_ret. split; [apply ext_app|]. split; [apply B|]. cbn [is_nil deref].
        exists (length (heap s)), (HInt z). split; auto. split; [unfold above; lia|]. cbn [heap]. rewrite nth_error_app2, Nat.sub_diag by lia. split; reflexivity. }
      destruct k; try discriminate; exact G.
    + destruct k; try discriminate; cbn [classify].
      * destruct T as [->|[(y & -> & _ & T)|(_ & N2 & _)]]; [rewrite (proj1 (src_nil _ _ R) eq_refl); apply does_ret; now apply nil_made| |congruence].
        inversion T as [? z Rz|b Rs|? Rs| |? m Sm|? m ? Sm Wm]; subst; try discriminate. unfold src in R. cbn [reads] in R. destruct R as (a & y & -> & _ & N & Rb). eapply does_on; [eapply based_at; eauto|].
        eapply does_bind; [apply (does_str s b y B Rb)|]. intros x s1 (E1 & F1 & R1). eapply does_bind; [apply does_alloc|]. intros a' s' [-> ->]. apply does_ret. split; [eapply ext_trans; [exact E1|apply ext_app]|]. split; [exact F1|]. cbn [is_nil deref reads].
        exists (length (heap s1)), x. split; auto. split; [unfold above; destruct E1; lia|]. cbn [heap]. rewrite nth_error_app2, Nat.sub_diag by lia. split; [reflexivity|]. apply (later_ext _ (heap s1) _ (VStr b) x (ext_app _ _) R1).
      * destruct T as [->|[(y & -> & [N|N] & _)|(_ & _ & T)]]; try discriminate; [rewrite (proj1 (src_nil _ _ R) eq_refl); apply does_ret; now apply nil_made|].
        apply (does_case t v VNil _ _ _ s (fun y => made s y) R); intros Nt; [apply does_ret; now apply nil_made|]. apply does_clone_bytes; auto. inversion T as [? z Rz|? Rs|? Rs| |? m Sm|? m ? Sm Wm]; subst; try discriminate; eauto.
Qed.

Lemma does_field m f t v s : In f (md_fields (md_of sc m)) -> is_oneof f = false -> wt_field sc (md_of sc m) f t -> (vdepth t < n)%nat -> src t v -> based s ->
  forall cur curt, (zero_of (f_ty f) = VNil -> cur = HNil /\ curt = VNil) -> does (hclone_field sc uclone rec f v cur) s (made s (clone_field sc rect f t curt)).
Proof.
  intros Hf O T D R B cur curt Z. pose proof (wf_ty sc m f W Hf) as WT. pose proof T as T'. apply wt_field_inv in T'. unfold is_oneof in O.
  destruct (f_ty f) as [[| | |p|] k|kk vk] eqn:Ty; try discriminate.
  - unfold hclone_field, clone_field. rewrite Ty. cbn in WT. apply andb_true_iff in WT as [_ WT]. destruct (sub_of k) eqn:S; [discriminate|]. destruct (is_num k) eqn:N.
    + destruct (wt_elem_num sc k t N T') as (z & -> & _). destruct k; try discriminate; now apply does_num.
    + destruct k; try discriminate; cbn [classify].
      * inversion T' as [? z Rz|b Rs|? Rs| |? m' Sm|? m' ? Sm Wm]; subst; try discriminate. now apply does_str.
      * destruct (Z eq_refl) as [-> ->]. apply (does_case t v VNil _ _ _ s (fun y => made s y) R); intros Nt; [apply does_ret; now apply nil_made|]. apply does_clone_bytes; auto. inversion T' as [? z Rz|? Rs|? Rs| |? m' Sm|? m' ? Sm Wm]; subst; try discriminate; eauto.
  - destruct (Z eq_refl) as [-> ->]. eapply does_set_field; eauto.
  - destruct (Z eq_refl) as [-> ->]. eapply does_set_field; eauto.
  - destruct (Z eq_refl) as [-> ->]. unfold hclone_field, clone_field. rewrite Ty. destruct T' as [->|(l & -> & Tl)]; [rewrite (proj1 (src_nil _ _ R) eq_refl); apply does_ret; now apply nil_made|].
    pose proof R as R'. apply reads_list in R'. destruct R' as (a & off & len & cap & es & es' & -> & _ & N & [S1 S2] & F). cbn [elems_of]. eapply does_now; [unfold bind, load; rewrite (based_at _ _ _ B N), (proj2 (Nat.leb_le _ _) S1), <- S2; reflexivity|].
    eapply does_bind; [apply does_alloc|]. intros a' s1 [-> ->]. set (s1 := mkMem (heap s ++ [OArr (repeat HNil (length es'))]) (free s) (picks s)).
    assert (based s1) as B1 by (eapply based_ext; [exact B|apply ext_app|apply B]). pose proof (based_len s B) as BL.
    eapply does_bind; [apply (does_elems (f_slot f) k (length (heap s)) l BL es' [] [] s1 0%nat); auto|].
    + cbn [heap s1 app]. rewrite nth_error_app2, Nat.sub_diag by lia. reflexivity.
    + intros x Hx. split; auto. pose proof (vdepth_list l x Hx). lia.
    + intros [] s2 (X2 & Fr2 & all & Na & La & Fa). apply does_ret. split; [eapply extx_new; [|exact X2]; apply ext_app|]. split; auto. apply reads_list. exists (length (heap s)), 0%nat, (length es'), (length es'), all, all.
      split; auto. split; [unfold above; lia|]. split; auto. split; [replace (length es') with (length all) by (rewrite La; reflexivity); apply slice_all|]. eapply Forall2_imp; [|exact Fa]. intros ? ? _ Q. eapply lower; [|exact Q]. lia.
  - destruct (Z eq_refl) as [-> ->]. unfold hclone_field, clone_field. rewrite Ty. cbn in WT. apply andb_true_iff in WT as [WT _]. apply andb_true_iff in WT as [KK _].
    destruct T' as [->|(l & -> & T1 & T2 & _)]; [rewrite (proj1 (src_nil _ _ R) eq_refl); apply does_ret; now apply nil_made|].
    pose proof R as R'. apply reads_map in R'. destruct R' as (a & es & -> & _ & N & F). cbn [entries_of]. eapply does_now; [unfold bind, load; rewrite (based_at _ _ _ B N); reflexivity|].
    eapply does_bind; [apply does_alloc|]. intros a' s1 [-> ->]. set (s1 := mkMem (heap s ++ [OMap []]) (free s) (picks s)).
    assert (based s1) as B1 by (eapply based_ext; [exact B|apply ext_app|apply B]). pose proof (based_len s B) as BL.
    eapply does_bind; [apply (does_entries (f_slot f) kk vk (length (heap s)) l KK BL es [] [] s1); auto|].
    + cbn [heap s1 app]. rewrite nth_error_app2, Nat.sub_diag by lia. reflexivity.
    + intros [e1 e2] He. split; [apply (T1 _ He)|]. split; [apply (T2 _ He)|]. pose proof (vdepth_map l e1 e2 He). cbn [snd]. lia.
    + intros [] s2 (X2 & Fr2 & all & Na & Fa). apply does_ret. split; [eapply extx_new; [|exact X2]; apply ext_app|]. split; auto. apply reads_map. exists (length (heap s)), all. split; auto. split; [unfold above; lia|]. split; auto.
      eapply Forall2_imp; [|exact Fa]. intros ? ? _ [Q1 Q2]. split; (eapply lower; [|eassumption]; lia).
Qed.
Lemma does_member sl k t v s : wt_elem sc k t -> (vdepth t < n)%nat -> src t v -> based s -> does (hclone_member sc uclone rec k v) s (made s (clone_member sc rect sl k t)).
Proof.
  intros T D R B. pose proof (does_singular (SField sl) k t v s T D R B) as DS. unfold hclone_member, clone_member.
  assert (forall m, does (if md_foreign (md_of sc m) then match v with HNil => ret HNil | _ => hclone_singular sc uclone rec k v end else hclone_singular sc uclone rec k v) s
    (made s (if md_foreign (md_of sc m) then if is_nil t then VNil else cloneFieldSingular sc rect (SField sl) k t else cloneFieldSingular sc rect (SField sl) k t))) as SUB.
  { intros m. destruct (md_foreign (md_of sc m)); [|exact DS]. apply (does_case t v VNil _ _ _ s (fun y => made s y) R); intros Nt; [apply does_ret; now apply nil_made|exact DS]. }
  inversion T as [? z Rz|? Rs|? Rs| |? m Sm|? m ? Sm Wm]; subst.
  - destruct k; try discriminate; now apply does_num.
  - now apply does_str.
  - cbn [classify]. apply (does_case _ v VNil _ _ _ s (fun y => made s y) R); intros Nt; [apply does_ret; now apply nil_made|]. apply does_clone_bytes; eauto.
  - cbn [classify]. apply (does_case _ v VNil _ _ _ s (fun y => made s y) R); intros Nt; [apply does_ret; now apply nil_made|]. apply does_clone_bytes; eauto.
  - destruct k; try discriminate; cbn [classify]; apply SUB.
  - destruct k; try discriminate; cbn [classify]; apply SUB.
Qed.
Lemma does_oneof m f t v s : In f (md_fields (md_of sc m)) -> is_oneof f = true -> wt_field sc (md_of sc m) f t -> (vdepth t < n)%nat -> src t v -> based s ->
  does (hclone_oneof sc uclone rec (md_of sc m) v HNil) s (made s (clone_oneof sc rect (md_of sc m) (f_slot f) t VNil)).
Proof.
  intros Hf O T D R B. apply wt_field_inv in T. unfold is_oneof in O. destruct (f_ty f) as [[| | |p|] k|kk vk] eqn:Ty; try discriminate.
  destruct T as [->|(g & k' & x & -> & Hg & Sg & Tg & Tx)]; [rewrite (proj1 (src_nil _ _ R) eq_refl); apply does_ret; now apply nil_made|].
  unfold src in R. cbn [reads] in R. destruct R as (a & y & -> & _ & N & Rx). unfold hclone_oneof, clone_oneof. eapply does_on; [eapply based_at; eauto|]. cbn beta iota.
  replace (find_field (f_num g) (md_fields (md_of sc m))) with (Some g) by (symmetry; apply (find_field_in sc m g W Hg)). rewrite Tg.
  eapply does_bind; [apply does_alloc|]. intros a' s1 [-> ->]. set (s1 := mkMem (heap s ++ [OWrap (f_num g) HNil]) (free s) (picks s)). assert (based s1) as B1 by (eapply based_ext; [exact B|apply ext_app|apply B]). pose proof (based_len s B) as BL.
  cbn [vdepth] in D. eapply does_bind; [apply (does_member (f_slot f) k' x y s1 Tx ltac:(lia) Rx B1)|]. intros z s2 (E2 & F2 & R2).
  assert (nth_error (heap s2) (length (heap s)) = Some (OWrap (f_num g) HNil)) as N2. { destruct E2 as [_ E2]. rewrite E2 by (cbn [heap s1]; rewrite app_length; cbn [length]; lia). cbn [heap s1]. rewrite nth_error_app2, Nat.sub_diag by lia. reflexivity. }
  eapply does_bind; [unfold set_wrap; eapply does_on; [exact N2|]; apply does_store; eapply nth_error_lt; eauto|]. intros [] s3 ->. apply does_ret. cbn [heap free].
  assert (extx (length (heap s)) (heap s1) (list_set (heap s2) (length (heap s)) (OWrap (f_num g) z))) as X by (eapply extx_trans; [apply ext_extx; exact E2|apply extx_set]).
  split; [eapply extx_new; [|exact X]; apply ext_app|]. split; auto. cbn [reads]. exists (length (heap s)), z. split; auto. split; [unfold above; lia|].
  cbn [heap]. rewrite nth_error_set_eq by (eapply nth_error_lt; eauto). split; auto. eapply lower; [|eapply later; [apply extx_set| |exact BL| |exact R2]].
  - cbn [heap s1]. rewrite app_length. lia.
  - cbn [heap s1]. rewrite app_length. cbn [length]. lia.
  - apply (based_ext _ _ B1 E2 F2).
Qed.

(** * The message *)
Section Message.
Variables (m : nat) (slots : list val) (unk : list Z) (a : nat) (hs : list hval) (u : hval).
Hypothesis SRC : nth_error h0 a = Some (OMsg hs u).
Hypothesis SL : Forall2 src slots hs.
Hypothesis DEPTH : forall i, (vdepth (slot slots i) < n)%nat.
Hypothesis TYPED : forall f, In f (md_fields (md_of sc m)) -> wt_field sc (md_of sc m) f (slot slots (f_slot f)).
Lemma src_slot i : src (slot slots i) (nth i hs HNil).
Proof. unfold slot. clear -SL. revert i. induction SL as [|x y l l' R F IH]; intros [|i]; cbn [nth]; auto; try reflexivity; try apply IH. Qed.
Lemma does_get i s : based s -> does (get_slot a i) s (fun x s' => x = nth i hs HNil /\ s' = s).
Proof. intros B. eapply does_on; [eapply based_at; eauto|]. apply does_ret. auto. Qed.
Lemma does_get_r r i s hr ur : nth_error (heap s) r = Some (OMsg hr ur) -> does (get_slot r i) s (fun x s' => x = nth i hr HNil /\ s' = s).
Proof. intros N. eapply does_on; [exact N|]. apply does_ret. auto. Qed.
Lemma read_nth P h l : forall l' i, Forall2 (reads P V h) l l' -> reads P V h (slot l i) (nth i l' HNil).
Proof. unfold slot. induction l as [|x l IH]; intros l' i F; inversion F; subst; destruct i; cbn [nth]; auto; reflexivity. Qed.
Lemma read_set P h l : forall l' i t x, Forall2 (reads P V h) l l' -> reads P V h t x -> Forall2 (reads P V h) (list_set l i t) (list_set l' i x).
Proof. induction l as [|y l IH]; intros l' i t x F R; inversion F; subst; destruct i; cbn [list_set]; constructor; auto. Qed.
(** One assignment to a member of the message at [r]. *)
Lemma does_assign r i s t x s' ur hr rt : (length h0 <= r)%nat -> based s -> nth_error (heap s) r = Some (OMsg hr ur) -> Forall2 (reads (above (S r)) V (heap s)) rt hr -> made s t x s' ->
  does (set_slot r i x) s' (fun _ s2 => extx r (heap s) (heap s2) /\ based s2 /\ exists hr', nth_error (heap s2) r = Some (OMsg hr' ur) /\ Forall2 (reads (above (S r)) V (heap s2)) (list_set rt i t) hr').
Proof.
  intros Lr B N F (E1 & F1 & R1). pose proof (nth_error_lt _ _ _ N) as Lt. assert (nth_error (heap s') r = Some (OMsg hr ur)) as N1 by (destruct E1 as [_ E1]; rewrite E1; auto). pose proof (based_ext _ _ B E1 F1) as B1.
  eapply does_on; [exact N1|]. eapply does_conseq; [apply does_store; eapply nth_error_lt; eauto|]. intros [] s2 ->. cbn [heap free].
  pose proof (extx_set r (heap s') (OMsg (list_set hr i x) ur)) as X. split; [eapply extx_trans; [apply ext_extx; exact E1|exact X]|]. split; [eapply (based_extx s' _ r); eauto|].
  exists (list_set hr i x). split; [rewrite nth_error_set_eq; auto; eapply nth_error_lt; eauto|].
  assert (forall t x, reads (above (S r)) V (heap s') t x -> reads (above (S r)) V (list_set (heap s') r (OMsg (list_set hr i x) ur)) t x) as K by (intros; eapply later; [apply extx_set|lia|exact Lr|apply B1|assumption]).
  assert (forall t y, reads (above (S r)) V (heap s') t y -> reads (above (S r)) V (list_set (heap s') r (OMsg (list_set hr i x) ur)) t y) as K' by (intros; eapply later; [exact X|lia|exact Lr|apply B1|assumption]).
  apply read_set.
  - eapply Forall2_imp; [|exact F]. intros ? ? _ Q. apply K'. eapply later_ext; eauto.
  - apply K'. eapply lower; [|exact R1]. lia.
Qed.
Lemma does_members r ur : (length h0 <= r)%nat -> forall fs, (forall f, In f fs -> In f (md_fields (md_of sc m)) /\ is_oneof f = false) -> NoDup (map f_slot fs) ->
  forall s rt hr, based s -> nth_error (heap s) r = Some (OMsg hr ur) -> Forall2 (reads (above (S r)) V (heap s)) rt hr -> (forall f, In f fs -> slot rt (f_slot f) = zero_of (f_ty f)) ->
  does (hclone_members sc uclone rec a r fs) s (fun _ s' => extx r (heap s) (heap s') /\ based s' /\
    exists hr', nth_error (heap s') r = Some (OMsg hr' ur) /\ Forall2 (reads (above (S r)) V (heap s')) (clone_assign slots (clone_field sc rect) fs rt) hr').
Proof.
  intros Lr. induction fs as [|f fs IH]; intros HF ND s rt hr B N F Z; cbn [hclone_members].
  - apply does_ret. split; [apply extx_refl|]. split; auto. exists hr. auto.
  - cbn [map] in ND. inversion ND as [|? ? ND1 ND2]; subst. destruct (HF f (or_introl eq_refl)) as [Hf Of].
    eapply does_bind; [now apply does_get|]. intros rhs s' [-> ->]. eapply does_bind; [eapply does_get_r; eauto|]. intros cur s' [-> ->].
    eapply does_bind; [apply (does_field m f (slot slots (f_slot f)) _ s Hf Of (TYPED f Hf) (DEPTH _) (src_slot _) B _ (slot rt (f_slot f)))|].
    { intros Zf. pose proof (read_nth _ _ rt hr (f_slot f) F) as Q. rewrite (Z f (or_introl eq_refl)), Zf in *. cbn [reads] in Q. auto. }
    intros x s1 Mx. eapply does_bind; [eapply (does_assign r (f_slot f) s _ x s1); eauto|]. intros [] s2 (X2 & B2 & hr2 & N2 & F2).
    eapply does_conseq; [apply (IH (fun g Hg => HF g (or_intror Hg)) ND2 s2 _ hr2 B2 N2 F2)|].
    + intros g Hg. rewrite slot_set_neq; [apply Z; now right|]. intros E. apply ND1. rewrite E. now apply in_map.
    + intros [] s3 (X3 & B3 & hr3 & N3 & F3). split; [eapply extx_trans; eauto|]. split; auto. exists hr3. split; auto.
Qed.
Lemma does_oneofs r ur : (length h0 <= r)%nat -> forall l, (forall i, In i l -> exists f, In f (md_fields (md_of sc m)) /\ is_oneof f = true /\ f_slot f = i) -> NoDup l ->
  forall s rt hr, based s -> nth_error (heap s) r = Some (OMsg hr ur) -> Forall2 (reads (above (S r)) V (heap s)) rt hr -> (forall i, In i l -> slot rt i = VNil) ->
  does (hclone_oneofs sc uclone rec (md_of sc m) a r l) s (fun _ s' => extx r (heap s) (heap s') /\ based s' /\
    exists hr', nth_error (heap s') r = Some (OMsg hr' ur) /\
      Forall2 (reads (above (S r)) V (heap s')) (fold_left (fun r i => list_set r i (clone_oneof sc rect (md_of sc m) i (slot slots i) (slot r i))) l rt) hr').
Proof.
  intros Lr. induction l as [|i l IH]; intros HF ND s rt hr B N F Z; cbn [hclone_oneofs fold_left].
  - apply does_ret. split; [apply extx_refl|]. split; auto. exists hr. auto.
  - inversion ND as [|? ? ND1 ND2]; subst. destruct (HF i (or_introl eq_refl)) as (f & Hf & Of & <-).
    eapply does_bind; [now apply does_get|]. intros rhs s' [-> ->]. eapply does_bind; [eapply does_get_r; eauto|]. intros cur s' [-> ->].
    pose proof (read_nth _ _ rt hr (f_slot f) F) as Q. rewrite (Z _ (or_introl eq_refl)) in *. cbn [reads] in Q. rewrite Q.
    eapply does_bind; [apply (does_oneof m f (slot slots (f_slot f)) _ s Hf Of (TYPED f Hf) (DEPTH _) (src_slot _) B)|].
    intros x s1 Mx. eapply does_bind; [eapply (does_assign r (f_slot f) s _ x s1); eauto|]. intros [] s2 (X2 & B2 & hr2 & N2 & F2).
    eapply does_conseq; [apply (IH (fun g Hg => HF g (or_intror Hg)) ND2 s2 _ hr2 B2 N2 F2)|].
    + intros j Hj. rewrite slot_set_neq; [apply Z; now right|]. intros E. apply ND1. now rewrite E.
    + intros [] s3 (X3 & B3 & hr3 & N3 & F3). split; [eapply extx_trans; eauto|]. split; auto. exists hr3. split; auto.
Qed.
Hypothesis UNK : reads_unk (fun _ => True) h0 unk u.
Lemma does_unk r s rt hr : (length h0 <= r)%nat -> based s -> nth_error (heap s) r = Some (OMsg hr HNil) -> Forall2 (reads (above (S r)) V (heap s)) rt hr ->
  does (hclone_unk (md_of sc m) a r) s (fun _ s' => extx r (heap s) (heap s') /\ based s' /\
    exists hr' ur, nth_error (heap s') r = Some (OMsg hr' ur) /\ Forall2 (reads (above (S r)) V (heap s')) rt hr' /\
      reads_unk (above (S r)) (heap s') (if md_keep (md_of sc m) then (if 0 <? zlen unk then unk else []) else []) ur).
Proof.
  intros Lr B N F. unfold hclone_unk. destruct (md_keep (md_of sc m)); [|apply does_ret; split; [apply extx_refl|]; split; auto; exists hr, HNil; split; auto; split; auto; now left].
  eapply does_now; [unfold get_unk, bind, load; rewrite (based_at _ _ _ B SRC); reflexivity|].
  assert (does (bytes_of u) s (fun b s' => b = unk /\ s' = s)) as DB.
  { destruct UNK as [[-> ->]|R]; [apply does_ret; auto|]. apply (does_bytes s (VBytes unk) u B); [eauto|exact R]. }
  eapply does_bind; [exact DB|]. intros b s' [-> ->]. destruct (0 <? zlen unk); [|apply does_ret; split; [apply extx_refl|]; split; auto; exists hr, HNil; split; auto; split; auto; now left].
  eapply does_bind; [apply does_alloc|]. intros na s1 [-> ->]. set (s1 := mkMem (heap s ++ [OBytes unk]) (free s) (picks s)). pose proof (nth_error_lt _ _ _ N) as Lt.
  assert (based s1) as B1 by (eapply based_ext; [exact B|apply ext_app|apply B]). assert (nth_error (heap s1) r = Some (OMsg hr HNil)) as N1 by (cbn [heap s1]; rewrite nth_error_app1; auto).
  unfold set_unk. eapply does_on; [exact N1|]. eapply does_conseq; [apply does_store; eapply nth_error_lt; eauto|]. intros [] s2 ->. cbn [heap free].
  set (o := OMsg hr (HSlice (length (heap s)) 0 (length unk) (length unk))). pose proof (extx_set r (heap s1) o) as X.
  split; [eapply extx_trans; [apply ext_extx; apply (ext_app (heap s) [OBytes unk])|exact X]|]. split; [eapply (based_extx s1 _ r); eauto; apply B1|].
  exists hr, (HSlice (length (heap s)) 0 (length unk) (length unk)). split; [apply nth_error_set_eq; eapply nth_error_lt; eauto|]. split.
  - eapply Forall2_imp; [|exact F]. intros ? ? _ Q. eapply later; [exact X|lia|exact Lr|apply B1|]. eapply later_ext; [apply (ext_app (heap s) [OBytes unk])|exact Q].
  - right. cbn [reads_bytes]. split; [unfold above; lia|]. exists unk. rewrite nth_error_set_neq by lia. cbn [heap s1]. rewrite nth_error_app2, Nat.sub_diag by lia. split; [reflexivity|]. apply slice_all.
Qed.
End Message.

Lemma zero_reads P h md : Forall2 (reads P V h) (zero_slots md) (map (hzero_slot md) (seq 0 (md_nslots md))).
Proof.
  unfold zero_slots. induction (seq 0 (md_nslots md)) as [|i l IH]; cbn [map]; constructor; auto. unfold zero_slot, hzero_slot. destruct (find _ _) as [f|]; [|reflexivity].
  unfold zero_of, hzero_of. destruct (f_ty f) as [[] k|]; try reflexivity. destruct (classify k); reflexivity.
Qed.
Lemma does_body m t v s : wt_ptrmsg sc m t -> (vdepth t < S n)%nat -> src t v -> based s -> does (hclone_body sc uclone rec m v) s (made s (clone_body sc rect (new_msg (md_of sc m)) m t)).
Proof.
  intros T D R B. destruct T as [->|T]; [rewrite (proj1 (src_nil _ _ R) eq_refl); apply does_ret; now apply nil_made|].
  destruct T as [m slots unk hid Ls TF Bu]. pose proof R as R'. apply reads_msg in R'. destruct R' as (-> & a & hs & u & -> & _ & N & U & F). unfold hclone_body, clone_body, new_msg. set (md := md_of sc m).
  assert (does (Alloc sc m) s (fun r s' => r = length (heap s) /\ heap s' = heap s ++ [new_obj md] /\ free s' = [])) as AL.
  { unfold Alloc. fold md. destruct B as [_ Fr]. destruct (md_pool md); [|eapply does_conseq; [apply does_alloc|]; intros ? ? [-> ->]; auto].
    unfold does. destruct (picks s) as [|i ps]; [eexists; eexists; split; [reflexivity|]; auto|]. rewrite Fr. destruct i; (eexists; eexists; split; [reflexivity|]; auto). }
  eapply does_bind; [exact AL|]. intros r s1 (-> & H1 & Fr1). pose proof (based_len s B) as BL. assert (ext (heap s) (heap s1)) as E1 by (rewrite H1; apply ext_app). pose proof (based_ext _ _ B E1 Fr1) as B1.
  assert (nth_error (heap s1) (length (heap s)) = Some (new_obj md)) as N1 by (rewrite H1, nth_error_app2, Nat.sub_diag by lia; reflexivity). unfold new_obj in N1.
  assert (forall i, (vdepth (slot slots i) < n)%nat) as DS by (intros i; pose proof (depth_slot slots i unk []); lia).
  assert (forall f, In f (md_fields md) -> slot (zero_slots md) (f_slot f) = zero_of (f_ty f)) as ZS by (intros f Hf; apply (slot_zero sc m f W Hf)).
  eapply does_bind; [eapply (does_members m slots a hs u N F DS TF (length (heap s)) HNil BL (filter (fun f => negb (is_oneof f)) (md_fields md)))|].
  - intros f Hf. apply filter_In in Hf as [Hf O]. split; auto. now destruct (is_oneof f).
  - apply (slots_nodup sc W m).
  - exact B1.
  - exact N1.
  - apply zero_reads.
  - intros f Hf. apply filter_In in Hf as [Hf _]. auto.
  - intros [] s2 (X2 & B2 & hr2 & N2 & F2).
    eapply does_bind; [eapply (does_oneofs m slots a hs u N F DS TF (length (heap s)) HNil BL (oneof_slots [] (md_fields md)))|].
    + intros i Hi. apply oneof_slots_in in Hi as (_ & f & Hf & O & E). exists f. auto.
    + apply oneof_slots_nodup.
    + exact B2.
    + exact N2.
    + exact F2.
    + intros i Hi. apply oneof_slots_in in Hi as (_ & f & Hf & O & <-). rewrite assign_other.
      * rewrite ZS by exact Hf. unfold is_oneof in O. destruct (f_ty f) as [[] k|]; try discriminate; reflexivity.
      * intros f' Hf' E. apply filter_In in Hf' as [Hf' O']. destruct (is_oneof f') eqn:O''; [discriminate|]. destruct (wf_compat sc m f f' W Hf Hf') as [_ Cc]; [intros ->; congruence|]. destruct (Cc (eq_sym E)). congruence.
    + intros [] s3 (X3 & B3 & hr3 & N3 & F3).
      eapply does_bind; [eapply (does_unk m unk a hs u N U (length (heap s)) s3); eauto|]. intros [] s4 (X4 & B4 & hr4 & ur & N4 & F4 & U4). apply does_ret.
      split; [eapply extx_new; [exact E1|]; eapply extx_trans; [exact X2|]; eapply extx_trans; [exact X3|exact X4]|]. split; [apply B4|].
      apply reads_msg. split; [unfold clone_hid; clear; induction (md_fields md) as [|f l IH]; cbn [fold_left]; auto; destruct (f_ty f) as [[] k|]; auto; destruct (slot slots (f_slot f)); auto|].
      exists (length (heap s)), hr4, ur. split; auto. split; [unfold above; lia|]. split; auto. split.
      * fold md in U4. destruct U4 as [U4|U4]; [now left|right]. destruct ur; try exact U4. destruct U4 as [U4 U5]. split; auto. unfold above in *. lia.
      * eapply Forall2_imp; [|exact F4]. intros ? ? _ Q. eapply lower; [|exact Q]. lia.
Qed.
End Level.

Lemma does_msg n : forall path m t v s, md_foreign (md_of sc m) = false -> wt_ptrmsg sc m t -> (vdepth t < n)%nat -> src t v -> based s ->
  does (hclone_msg sc uclone n m v) s (made s (clone_msg sc (fun _ m => new_msg (md_of sc m)) n path m t)).
Proof.
  induction n as [|n IH]; intros path m t v s F T D R B; [lia|]. cbn [hclone_msg clone_msg]. apply does_body with (n := n); auto.
Qed.
End Content.
