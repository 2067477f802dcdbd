(** C35: the memory of a clone. *)
From Coq Require Import ZArith List Bool Lia.
From Verif Require Import Base BaseFacts Schema Value Helpers Unmarshal Equal Clone Typing MarshalFacts MarshalTop SameFacts TargetFacts CloneSpec CloneFacts Ex Heap HeapSpec HeapFacts HeapRead.
Import ListNotations.
Open Scope Z_scope.

(** * Example: [ex_v] laid out in memory *)
Fixpoint put (t : val) (h : list obj) {struct t} : hval * list obj :=
  let puts := fix puts (l : list val) (h : list obj) {struct l} : list hval * list obj :=
    match l with [] => ([], h) | x :: l' => let (y, h) := put x h in let (ys, h) := puts l' h in (y :: ys, h) end in
  match t with
  | VNil | VRefS _ _ | VRefB _ _ => (HNil, h)
  | VInt z => (HInt z, h)
  | VStr s => (HStr s, h)
  | VBytes b => (HSlice (length h) 0 (length b) (length b), h ++ [OBytes b])
  | VPtr x => let (y, h) := put x h in (HPtr (length h), h ++ [OCell y])
  | VOneof n x => let (y, h) := put x h in (HPtr (length h), h ++ [OWrap n y])
  | VList l => let (es, h) := puts l h in (HSlice (length h) 1 (length es) (length es), h ++ [OArr (HNil :: es)])
  | VMap l =>
      let (es, h) := (fix puts (l : list (val * val)) (h : list obj) {struct l} : list (hval * hval) * list obj :=
        match l with [] => ([], h) | (k, x) :: l' => let (k, h) := put k h in let (y, h) := put x h in let (ys, h) := puts l' h in ((k, y) :: ys, h) end) l h in
      (HMap (length h), h ++ [OMap es])
  | VMsg l u _ =>
      let (es, h) := puts l h in
      match u with
      | [] => (HPtr (length h), h ++ [OMsg es HNil])
      | _ => (HPtr (S (length h)), h ++ [OBytes u; OMsg es (HSlice (length h) 0 (length u) (length u))])
      end
  end.
Definition ex_p : hval := fst (put ex_v []).
Definition ex_heap : list obj := snd (put ex_v []).
Definition ex_mem : mem := mkMem ex_heap [] [].
(** The same schema with a pool for the message types 0 and 1; the pools hold a message of
    type 0 whose list member has capacity left. *)
Definition ex_pool_sc : schema :=
  mkS [mkM (md_fields ex_m0) (md_nslots ex_m0) true [] true false; mkM (md_fields ex_m1) (md_nslots ex_m1) true [] true false; ex_m2 true] ex_up.
Definition pool_msg : obj := OMsg [HInt 0; HNil; HSlice (length ex_heap) 0 0 1; HNil; HNil; HNil; HInt 0; HNil; HNil; HNil] HNil.
Definition ex_mem_pool : mem := mkMem (ex_heap ++ [OArr [HInt 4]; pool_msg]) [(0%nat, S (length ex_heap))] [0%nat].
(** proto.Clone for the message type without helpers: its only member is a number. *)
Definition num_of (v : hval) : hval := match v with HInt z => HInt z | _ => HInt 0 end.
Definition ex_uclone (m : nat) (v : hval) (h : list obj) : option (hval * list obj) :=
  match v with
  | HPtr a =>
      match nth_error h a with
      | Some (OMsg l HNil) => Some (HPtr (length h), [OMsg (map num_of l) HNil])
      | Some (OMsg l (HSlice b off len _)) =>
          match nth_error h b with
          | Some (OBytes bs) => Some (HPtr (S (length h)), [OBytes (firstn len (skipn off bs)); OMsg (map num_of l) (HSlice (length h) 0 len len)])
          | _ => None
          end
      | _ => None
      end
  | _ => Some (HNil, [])
  end.
Lemma num_points l o : (forall x, In x (vars o) -> In x (map num_of l) \/ x = HNil) -> forall a, points o a -> False.
Proof. intros H a (x & Hx & Ha). apply H in Hx as [Hx| ->]; [|destruct Ha]. apply in_map_iff in Hx as (y & <- & _). destruct y; destruct Ha. Qed.
Lemma ex_fresh : up_fresh ex_uclone.
Proof.
  intros m v h r new E. unfold ex_uclone in E. destruct v; try (injection E as <- <-; split; intros ? ? ; [contradiction|intros []]).
  destruct (nth_error h a) as [[]|]; try discriminate. destruct unk; try discriminate.
  - injection E as <- <-. split; [intros b [<-|[]]; lia|]. intros o b [<-|[]] P. exfalso. eapply num_points; [|exact P]. cbn [vars]. intros x [<-|Hx]; [now right|left; exact Hx].
  - destruct (nth_error h a0) as [[]|]; try discriminate. injection E as <- <-. split; [intros b' [<-|[]]; lia|]. intros o b' [<-|[<-|[]]] P; [destruct P as (x & [] & _)|].
    destruct P as (x & Hx & Ha). cbn [vars] in Hx. destruct Hx as [<-|Hx]; [destruct Ha as [<-|[]]; lia|]. apply in_map_iff in Hx as (y & <- & _). destruct y; destruct Ha.
Qed.
Lemma ex_holds : up_holds ex_sc ex_uclone.
Proof.
  intros m v h t V F T R. assert (m = 2%nat) as -> by (destruct m as [|[|[|m]]]; try discriminate; auto; destruct m; discriminate).
  cbn [up_clone sc_up ex_sc ex_up]. destruct T as [->|T]; [cbn [reads] in *; subst v; exists HNil, []; auto|].
  inversion T as [m0 slots unk hid L TF B]; subst. apply reads_msg in R. destruct R as (-> & a & hs & u & -> & _ & N & U & Fs). destruct slots as [|x [|]]; try discriminate. specialize (TF _ (or_introl eq_refl)). apply wt_field_inv in TF. cbn in TF.
  inversion TF; subst; try discriminate. inversion Fs as [|? y ? ys Ry Fy]; subst. inversion Fy; subst. cbn [reads] in Ry. subst y. unfold ex_uclone. rewrite N.
  destruct U as [[-> ->]|U].
  - eexists; eexists; split; [reflexivity|]. apply reads_msg. split; auto. exists (length h), [HInt z], HNil. split; auto. split; [lia|]. rewrite nth_error_app2, Nat.sub_diag by lia. split; [reflexivity|]. split; [now left|]. constructor; [reflexivity|constructor].
  - destruct u; try contradiction. cbn [reads_bytes] in *. destruct U as (_ & b & Nb & Sb & ->). rewrite Nb. eexists; eexists; split; [reflexivity|]. apply reads_msg. split; auto.
    exists (S (length h)), [HInt z], (HSlice (length h) 0 len len). split; auto. split; [lia|]. split; [rewrite nth_error_app2 by lia; replace (S (length h) - length h)%nat with 1%nat by lia; reflexivity|].
    split; [right; cbn [reads_bytes]; split; [lia|]; exists (firstn len (skipn off b)); rewrite nth_error_app2, Nat.sub_diag by lia; split; [reflexivity|]|constructor; [reflexivity|constructor]].
    assert (length (firstn len (skipn off b)) = len) as Lb by (rewrite firstn_length, skipn_length; lia). split; [lia|]. cbn [skipn]. symmetry. rewrite <- Lb at 1. apply firstn_all.
Qed.
Ltac read_example :=
  repeat match goal with
  | |- True => exact I
  | |- exists _, _ => eexists
  | |- _ /\ _ => split
  | |- (_ = HNil /\ _ = []) \/ _ => first [left; split; reflexivity | right; cbn]
  | |- slice _ _ _ _ => split
  | |- (_ <= _)%nat => vm_compute; lia
  | |- _ => reflexivity
  | |- _ => progress cbn
  end.
Lemma ex_reads : reads (fun _ => True) (fun _ => False) ex_heap ex_v ex_p.
Proof. cbn. read_example. Qed.

(** * C35 *)
(** Every object that can be changed through the clone is new, or comes from the pools. *)
Theorem C35_fresh : forall sc uclone n m v s r s',
  up_fresh uclone -> hclone_msg sc uclone n m v s = Some (r, s') ->
  forall a, reach (heap s') (from r) a -> (length (heap s) <= a)%nat \/ reach (heap s) (pooled s) a.
Proof.
  intros sc uclone n m v s r s' UF E. destruct (safe_msg sc uclone UF s n m v s r s' (inv0 s) E) as [I O]. intros a R. induction R as [a Ra|a o b R IH N P].
  - now apply O.
  - exact (inv_closed s s' I a o b IH N P).
Qed.
Print Assumptions C35_fresh.

(** ... all of it new, if the pools are not used. *)
Theorem C35_new : forall sc uclone n m v s r s',
  up_fresh uclone -> free s = [] -> hclone_msg sc uclone n m v s = Some (r, s') ->
  forall a, reach (heap s') (from r) a -> (length (heap s) <= a)%nat.
Proof.
  intros sc uclone n m v s r s' UF F E a R. destruct (C35_fresh _ _ _ _ _ _ _ _ UF E a R) as [L|P]; auto. exfalso. clear -F P. induction P as [a [m Pa]|]; [rewrite F in Pa; destruct Pa|exact IHP].
Qed.
Print Assumptions C35_new.

(** The call changes only messages it takes from the pools. *)
Theorem C35_unchanged : forall sc uclone n m v s r s',
  up_fresh uclone -> hclone_msg sc uclone n m v s = Some (r, s') ->
  forall a o, nth_error (heap s) a = Some o -> ~ pooled s a -> nth_error (heap s') a = Some o.
Proof.
  intros sc uclone n m v s r s' UF E a o N P. destruct (safe_msg sc uclone UF s n m v s r s' (inv0 s) E) as [I _]. rewrite (inv_old s s' I a); auto. eapply nth_error_lt; eauto.
Qed.
Print Assumptions C35_unchanged.

(** What a program that holds the addresses [R] can change. *)
Lemma runs_keep (K : nat -> Prop) R h h' : runs R h h' -> forall C : nat -> Prop, (forall a, R a -> C a) -> (forall a o b, C a -> nth_error h a = Some o -> points o b -> C b) ->
  (forall a, K a -> (a < length h)%nat /\ ~ C a) -> forall a, K a -> nth_error h' a = nth_error h a.
Proof.
  intros H. induction H as [R h|R h a o h' Ra N H IH|R h o h' Po H IH|R h a o h' Ra Po H IH]; intros C RC CC KC x Kx; auto.
  - apply (IH C); auto. intros b [Rb|Pb]; auto. eapply CC; eauto.
  - rewrite (IH (fun b => C b \/ b = length h)); auto.
    + apply nth_error_app1. apply KC; auto.
    + intros b [Rb|Eb]; auto.
    + intros b o' c Cb N P. destruct (Nat.lt_ge_cases b (length h)) as [L|L].
      * rewrite nth_error_app1 in N by auto. left. destruct Cb as [Cb|Cb]; [|lia]. eapply CC; eauto.
      * rewrite nth_error_app2 in N by auto. left. destruct (b - length h)%nat as [|k]; cbn in N; [injection N as <-; apply RC; now apply Po|destruct k; discriminate].
    + intros b Kb. destruct (KC b Kb) as [L NC]. rewrite app_length. split; [lia|]. intros [Cb|Cb]; [contradiction|lia].
  - rewrite (IH C); auto.
    + destruct (Nat.eq_dec a x) as [E|NE]; [|now apply nth_error_set_neq]. subst. destruct (KC x Kx) as [_ NC]. exfalso. apply NC. now apply RC.
    + intros b o' c Cb N P. destruct (Nat.eq_dec a b) as [E|NE]; [|rewrite nth_error_set_neq in N by auto; eapply CC; eauto]. subst b. destruct (Nat.lt_ge_cases a (length h)) as [L|L].
      * rewrite nth_error_set_eq in N by auto. injection N as <-. apply RC. now apply Po.
      * apply nth_error_lt in N. rewrite list_set_length in N. lia.
    + intros b Kb. rewrite list_set_length. auto.
Qed.
Lemma firstn_skipn_in {A} off len (l : list A) y : In y (firstn len (skipn off l)) -> In y l.
Proof. intros H. rewrite <- (firstn_skipn off l). apply in_or_app. right. rewrite <- (firstn_skipn len (skipn off l)). apply in_or_app. now left. Qed.
Lemma reads_reach P V h t : forall v (Q : nat -> Prop), (forall a, from v a -> Q a) -> (forall a o b, Q a -> nth_error h a = Some o -> points o b -> Q b) ->
  reads P V h t v -> reads (fun a => P a /\ Q a) V h t v.
Proof.
  induction t using val_tree_ind; intros v Q RQ CQ R; auto.
  - cbn [reads] in *. destruct v; cbn [reads_bytes] in *; try contradiction. destruct R as (Pa & R). split; auto. split; auto. apply RQ. now left.
  - cbn [reads] in *. destruct R as (a & y & -> & Pa & N & R). assert (Q a) as Qa by (apply RQ; now left). exists a, y. repeat (split; auto). apply IHt; auto. intros b Hb. eapply CQ; eauto. exists y. split; [now left|exact Hb].
  - rewrite reads_list in *. destruct R as (a & off & len & cap & es & es' & -> & Pa & N & S & F). assert (Q a) as Qa by (apply RQ; now left). exists a, off, len, cap, es, es'. repeat (split; auto).
    assert (forall y, In y es' -> In y es) as Sub by (destruct S as [_ ->]; intros y Hy; apply (firstn_skipn_in off len es y Hy)).
    clear S. revert Sub. induction F as [|x y l l' Rx F IH]; intros Sub; constructor.
    + apply H; auto; [now left|]. intros b Hb. eapply CQ; eauto. exists y. split; [apply Sub; now left|exact Hb].
    + apply IH; [intros; apply H; auto; now right|]. intros; apply Sub; now right.
  - rewrite reads_map in *. destruct R as (a & es & -> & Pa & N & F). assert (Q a) as Qa by (apply RQ; now left). exists a, es. repeat (split; auto).
    assert (forall e, In e es -> forall b, from (fst e) b \/ from (snd e) b -> Q b) as Sub.
    { intros e He b Hb. eapply CQ; eauto. destruct Hb as [Hb|Hb]; [exists (fst e)|exists (snd e)]; (split; [|exact Hb]); cbn [vars]; apply in_or_app; [left|right]; now apply in_map. }
    clear N. revert Sub. induction F as [|x y l l' [R1 R2] F IH]; intros Sub; constructor.
    + destruct (H x (or_introl eq_refl)) as [H1 H2]. split; [apply H1|apply H2]; auto; intros b Hb; apply (Sub y); auto; now left.
    + apply IH; [intros; apply H; now right|]. intros e He; apply Sub; now right.
  - cbn [reads] in *. destruct R as (a & y & -> & Pa & N & R). assert (Q a) as Qa by (apply RQ; now left). exists a, y. repeat (split; auto). apply IHt; auto. intros b Hb. eapply CQ; eauto. exists y. split; [now left|exact Hb].
  - rewrite reads_msg in *. destruct R as (Hh & a & hs & w & -> & Pa & N & U & F). assert (Q a) as Qa by (apply RQ; now left). split; auto. exists a, hs, w. split; auto. split; auto. split; auto. split.
    + destruct U as [U|U]; [now left|right]. destruct w; try contradiction. destruct U as [Pw U]. split; auto. split; auto. eapply CQ; eauto. exists (HSlice a0 off len cap). split; now left.
    + assert (forall y, In y hs -> forall b, from y b -> Q b) as Sub by (intros y Hy b Hb; eapply CQ; eauto; exists y; split; [now right|exact Hb]).
      clear N U. revert Sub. induction F as [|x y l' l'' Rx F IH]; intros Sub; constructor.
      * apply H; auto; [now left|]. apply Sub. now left.
      * apply IH; [intros; apply H; auto; now right|]. intros z Hz; apply Sub; now right.
Qed.

(** [apart s v]: the memory of [v] is allocated, and it is not memory of the pools. *)
Definition apart (s : mem) (v : hval) : Prop :=
  forall a, reach (heap s) (from v) a -> (a < length (heap s))%nat /\ ~ reach (heap s) (pooled s) a.
Lemma reach_same sc uclone n m v s r s' : up_fresh uclone -> hclone_msg sc uclone n m v s = Some (r, s') -> forall w, apart s w -> forall a, reach (heap s') (from w) a -> reach (heap s) (from w) a.
Proof.
  intros UF E w A a R. induction R as [a Ra|a o b R IH N P]; [now constructor|]. destruct (A a IH) as [L NP]. eapply reach_next; eauto.
  destruct (safe_msg sc uclone UF s n m v s r s' (inv0 s) E) as [I _]. rewrite <- (inv_old s s' I a L); auto. intros Pa. apply NP. now constructor.
Qed.
(** After the call, a program that works with the clone does not change what the original
    [v] (or any other variable [w] apart from the pools) holds: *)
Theorem C35_original : forall sc uclone n m v s r s' w,
  up_fresh uclone -> hclone_msg sc uclone n m v s = Some (r, s') -> apart s w ->
  forall h' t, runs (from r) (heap s') h' -> reads (fun _ => True) (fun _ => False) (heap s) t w -> reads (fun _ => True) (fun _ => False) h' t w.
Proof.
  intros sc uclone n m v s r s' w UF E A h' t RUN R.
  apply (reads_reach _ _ _ t w (reach (heap s) (from w))) in R; [|intros; now constructor|intros; eapply reach_next; eauto].
  revert R. apply reads_mono; [|contradiction]. intros a o [_ Ra] N. split; auto. destruct (A a Ra) as [L NP].
  rewrite (runs_keep (reach (heap s) (from w)) _ _ _ RUN (reach (heap s') (from r))); auto.
  - eapply C35_unchanged; eauto. intros Pa. apply NP. now constructor.
  - intros; now constructor.
  - intros; eapply reach_next; eauto.
  - intros b Rb. destruct (A b Rb) as [Lb NPb]. destruct (safe_msg sc uclone UF s n m v s r s' (inv0 s) E) as [I _]. pose proof (inv_len s s' I). split; [lia|]. intros Rr. destruct (C35_fresh _ _ _ _ _ _ _ _ UF E b Rr); [lia|contradiction].
Qed.
Print Assumptions C35_original.

(** ... and a program that works with the original (or with any other variables apart
    from the pools) does not change what the clone holds. *)
Theorem C35_clone : forall sc uclone n m v s r s' w,
  up_fresh uclone -> hclone_msg sc uclone n m v s = Some (r, s') -> apart s w ->
  forall h' t, runs (from w) (heap s') h' -> reads (fun _ => True) (fun _ => False) (heap s') t r -> reads (fun _ => True) (fun _ => False) h' t r.
Proof.
  intros sc uclone n m v s r s' w UF E A h' t RUN R.
  apply (reads_reach _ _ _ t r (reach (heap s') (from r))) in R; [|intros; now constructor|intros; eapply reach_next; eauto].
  revert R. apply reads_mono; [|contradiction]. intros a o [_ Ra] N. split; auto. rewrite <- N.
  apply (runs_keep (fun b => (b < length (heap s'))%nat /\ reach (heap s') (from r) b) _ _ _ RUN (reach (heap s') (from w))).
  - intros; now constructor.
  - intros; eapply reach_next; eauto.
  - intros b [Lb Rb]. split; auto. intros Rw. apply (reach_same _ _ _ _ _ _ _ _ UF E w A) in Rw. destruct (A b Rw) as [Lw NP]. destruct (C35_fresh _ _ _ _ _ _ _ _ UF E b Rb); [lia|contradiction].
  - split; auto. eapply nth_error_lt; eauto.
Qed.
Print Assumptions C35_clone.

(** The clone is made (no panic, no endless recursion), in new memory only, and holds the
    tree Clone.v computes (C34: equal to the original).  [V] holds the buffers strings of
    the original alias: those of the clone alias them too. *)
Theorem C35_content : forall sc uclone m v t (V : nat -> Prop) h ps,
  wf_schema sc = true -> up_holds sc uclone -> md_foreign (md_of sc m) = false -> wt_msg sc m t ->
  (forall a, V a -> (a < length h)%nat) -> reads (fun _ => True) V h t v ->
  exists r s', hclone_msg sc uclone (S (vdepth t)) m v (mkMem h [] ps) = Some (r, s') /\
    reads (fun a => (length h <= a)%nat) V (heap s') (CloneVT sc m t) r.
Proof.
  intros sc uclone m v t V h ps W UH F T VO R.
  destruct (does_msg sc uclone W UH h V VO (S (vdepth t)) [] m t v (mkMem h [] ps) F (or_intror T) (Nat.lt_succ_diag_r _) R) as (r & s' & E & _ & _ & R'); [split; [apply ext_refl|reflexivity]|].
  exists r, s'. split; auto.
Qed.
Print Assumptions C35_content.

(** Not for strings made by UnmarshalVTUnsafe: the clone's strings alias the buffer the
    original was decoded from, so overwriting it changes the clone. *)
Definition view_heap (b : list Z) : list obj :=
  [OBytes b; OCell (HView 0 0 2); OMsg [HInt 0; HPtr 1; HNil; HNil; HNil; HNil; HInt 0; HNil; HNil; HNil] HNil].
Definition view_tree (b : list Z) : val := VMsg [VInt 0; VPtr (VStr b); VNil; VNil; VNil; VNil; VInt 0; VNil; VNil; VNil] [] [].
Theorem C35_unsafe_string_refuted : exists sc uclone n m v t s r s',
  up_fresh uclone /\ wf_schema sc = true /\ wt_msg sc m t /\ reads (fun _ => True) (eq 0%nat) (heap s) t v /\
  hclone_msg sc uclone n m v s = Some (r, s') /\
  (forall a, reach (heap s') (from r) a -> (length (heap s) <= a)%nat) /\
  reads (fun _ => True) (eq 0%nat) (heap s') t r /\
  exists b t', t' <> t /\ reads (fun _ => True) (eq 0%nat) (list_set (heap s') 0 (OBytes b)) t' r.
Proof.
  exists ex_sc, ex_uclone, 5%nat, 0%nat, (HPtr 2), (view_tree [104; 105]), (mkMem (view_heap [104; 105]) [] []). eexists. eexists.
  split; [apply ex_fresh|]. split; [apply ex_wf|]. split; [now apply (check_ok ex_sc 5)|]. split; [cbn; read_example|]. split; [vm_compute; reflexivity|].
  split; [apply (C35_new ex_sc ex_uclone 5 0 (HPtr 2) (mkMem (view_heap [104; 105]) [] [])); [apply ex_fresh|reflexivity|vm_compute; reflexivity]|].
  split; [cbn; read_example|]. exists [120; 121], (view_tree [120; 121]). split; [discriminate|]. cbn. read_example.
Qed.
Print Assumptions C35_unsafe_string_refuted.

(** * Examples *)
Definition below (k : nat) (h : list obj) : bool :=
  forallb (fun o => forallb (fun x => forallb (fun b => Nat.ltb b k) (addrs x)) (vars o)) (firstn k h).
Lemma below_reach k h (R : nat -> Prop) : below k h = true -> (forall a, R a -> (a < k)%nat) -> forall a, reach h R a -> (a < k)%nat.
Proof.
  intros B RK a H. induction H as [a Ra|a o b H IH N (x & Hx & Hb)]; auto. unfold below in B. rewrite forallb_forall in B.
  assert (In o (firstn k h)) as Ho. { clear -N IH. revert a h N IH. induction k as [|k IHk]; intros a h N L; [lia|]. destruct h as [|y h]; [destruct a; discriminate|]. cbn [firstn]. destruct a as [|a]; [injection N as ->; now left|right; apply (IHk a); auto; lia]. }
  apply B in Ho. rewrite forallb_forall in Ho. apply Ho in Hx. rewrite forallb_forall in Hx. apply Hx in Hb. now apply Nat.ltb_lt.
Qed.
Lemma ex_apart : apart ex_mem ex_p.
Proof.
  intros a R. split.
  - revert a R. apply (below_reach (length ex_heap)); [vm_compute; reflexivity|]. intros a [<-|[]]. vm_compute. lia.
  - intros P. clear R. induction P as [? [? []]|]; auto.
Qed.
Lemma ex_apart_pool : apart ex_mem_pool ex_p.
Proof.
  assert (forall a, reach (heap ex_mem_pool) (from ex_p) a -> (a < 17)%nat) as L by (apply below_reach; [vm_compute; reflexivity|]; intros a [<-|[]]; vm_compute; lia).
  intros a R. apply L in R. split; [vm_compute; lia|]. intros P.
  assert (a = 17%nat \/ a = 18%nat) as K; [|lia]. clear R. induction P as [b [m Hb]|b o c P IH N (x & Hx & Hc)].
  - vm_compute in Hb. destruct Hb as [Hb|[]]. injection Hb as <- <-. now right.
  - destruct IH as [-> | ->]; vm_compute in N; injection N as <-; vm_compute in Hx; repeat (destruct Hx as [<-|Hx]; [vm_compute in Hc; first [contradiction|destruct Hc as [<-|[]]; auto]|]); contradiction.
Qed.

Definition ex_run := hclone_msg ex_sc ex_uclone (S (vdepth ex_v)) 0 ex_p ex_mem.
Definition ex_run_pool := hclone_msg ex_pool_sc ex_uclone (S (vdepth ex_v)) 0 ex_p ex_mem_pool.
(** The clone of [ex_v]; a program that sets the first member of the clone to 9 and its
    list to another one leaves the original as it is. *)
Example C35_example : exists r s' h' t',
  up_fresh ex_uclone /\ up_holds ex_sc ex_uclone /\ wf_schema ex_sc = true /\ wt_msg ex_sc 0 ex_v /\ apart ex_mem ex_p /\
  reads (fun _ => True) (fun _ => False) (heap ex_mem) ex_v ex_p /\ ex_run = Some (r, s') /\
  reads (fun _ => True) (fun _ => False) (heap s') ex_v r /\
  runs (from r) (heap s') h' /\ reads (fun _ => True) (fun _ => False) h' t' r /\ t' <> ex_v /\
  reads (fun _ => True) (fun _ => False) h' ex_v ex_p.
Proof.
  eexists. eexists. eexists. eexists.
  split; [apply ex_fresh|]. split; [apply ex_holds|]. split; [apply ex_wf|]. split; [apply ex_wt|]. split; [apply ex_apart|]. split; [apply ex_reads|]. split; [vm_compute; reflexivity|]. cbn [heap].
  split; [cbn; read_example|]. split.
  - eapply run_alloc with (o := OArr [HInt 3]); [intros b (x & [<-|[]] & [])|].
    eapply run_write with (a := 17%nat) (o := OMsg [HInt 9; HNil; HSlice 34 0 1 1; HNil; HNil; HNil; HInt 0; HNil; HNil; HNil] HNil); [left; now left| |apply run_done].
    intros b (x & Hx & Hb). cbn [vars] in Hx. repeat (destruct Hx as [<-|Hx]; [cbn in Hb; first [contradiction|destruct Hb as [<-|[]]; right; reflexivity]|]). contradiction.
  - split; [|split].
    + instantiate (1 := VMsg [VInt 9; VNil; VList [VInt 3]; VNil; VNil; VNil; VInt 0; VNil; VNil; VNil] [] []). cbn. read_example.
    + discriminate.
    + cbn. read_example.
Qed.
(** With pools: the clone is the message the pool gave; its empty list member keeps the
    pool's array if the original has none. *)
Example C35_pool_example : exists r s',
  apart ex_mem_pool ex_p /\ ex_run_pool = Some (r, s') /\ from r 18 /\ reads (fun _ => True) (fun _ => False) (heap s') ex_v r /\ reads (fun _ => True) (fun _ => False) (heap s') ex_v ex_p.
Proof. eexists. eexists. split; [apply ex_apart_pool|]. split; [vm_compute; reflexivity|]. split; [now left|]. split; cbn; read_example. Qed.
