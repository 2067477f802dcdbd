(** C39 and C53: the memory UnmarshalVT, UnmarshalVTUnsafe and ReturnToVTPool touch. *)
From Coq Require Import ZArith List Bool Lia.
From Verif Require Import Base BaseFacts Schema Value Helpers Typing TargetFacts Heap HeapSpec HeapFacts HeapRead HeapDec HeapDecSpec HeapDecFacts Ex PropsHeap PropsPool.
From Verif Require Unmarshal.
Import ListNotations.
Open Scope Z_scope.

Definition space (s : mem) (vs : list hval) (bufs : list nat) (a : nat) : Prop :=
  (reach (heap s) (held s vs) a /\ ~ In a bufs) \/ (length (heap s) <= a)%nat.
Definition strings (s : mem) (vs : list hval) (bufs : list nat) (b : nat) : Prop := seen (heap s) (held s vs) b \/ In b bufs.
Lemma space_good s vs bufs : arrays bufs (heap s) -> unk_apart bufs (heap s) (held s vs) ->
  (forall m a, In (m, a) (free s) -> ~ In a bufs) ->
  good (fun a => In a bufs) (space s vs bufs) (strings s vs bufs) (heap s) s /\
  buffers (fun a => In a bufs) (space s vs bufs) (heap s) /\
  (forall v, In v vs -> (forall b, In b (views v) -> False) -> mine (fun a => In a bufs) (space s vs bufs) (strings s vs bufs) v).
Proof.
  intros AB UA FB.
  assert (forall a, reach (heap s) (held s vs) a -> space s vs bufs a \/ In a bufs) as SP.
  { intros a R. destruct (in_dec Nat.eq_dec a bufs); [now right|]. left. left. auto. }
  split; [|split].
  - split; [split; [lia|split; [|auto]]|].
    + intros a o [[R Na]|L] N; [|apply nth_error_lt in N; lia]. split.
      * intros x Hx. split; [intros b Hb; apply SP; eapply reach_next; eauto; exists x; auto|]. intros b Hb. left. exists a, o, x. auto.
      * intros l u b -> Hb. left. split; [eapply reach_next; eauto; exists u; split; [now left|auto]|]. eapply UA; eauto.
    + intros m a H. left. split; [apply reach_root; right; exists m; auto|]. eapply FB; eauto.
  - intros a Ha. destruct (AB a Ha) as [bs E]. split; [|eauto]. intros [[_ N]|L]; [auto|]. apply nth_error_lt in E. lia.
  - intros v Hv NV. split; [|intros b Hb; destruct (NV b Hb)]. intros a Ha. apply SP. apply reach_root. left. exists v. auto.
Qed.
Lemma sure_leaves {A} B S V h0 (x : D A) Q s s' : sure B S V h0 x Q -> good B S V h0 s -> leaves (x s) s' -> good B S V h0 s'.
Proof. intros X G L. specialize (X s G). destruct (x s); cbn in L; subst; tauto. Qed.
Lemma good_reach B S V h0 s (R : nat -> Prop) : good B S V h0 s -> buffers B S h0 -> (forall a, R a -> S a \/ B a) ->
  forall a, reach (heap s) R a -> S a \/ B a.
Proof.
  intros G BS RS a H. induction H as [a Ra|a o b H IH N (x & Hx & Hb)]; auto. destruct IH as [Sa|Ba].
  - destruct G as [(_ & C & _) _]. destruct (C a o Sa N) as [C1 _]. now apply (C1 x Hx).
  - destruct (b_bytes _ _ _ _ BS s a o G Ba N) as [bs ->]. destruct Hx.
Qed.
Lemma hptr_views v b : hptr v -> In b (views v) -> False. Proof. intros [->|[a ->]] []. Qed.

Lemma touch {A} (x : D A) v s s' : hptr v ->
  (forall (B S V : nat -> Prop) h0, (forall a, (length h0 <= a)%nat -> S a) -> buffers B S h0 -> (forall a, ~ B a) -> mine B S V v -> sure B S V h0 x (fun _ => True)) ->
  leaves (x s) s' ->
  (length (heap s) <= length (heap s'))%nat /\
  (forall a, (a < length (heap s))%nat -> ~ reach (heap s) (held s [v]) a -> nth_error (heap s') a = nth_error (heap s) a) /\
  (forall a, reach (heap s') (held s' [v]) a -> reach (heap s) (held s [v]) a \/ (length (heap s) <= a)%nat) /\
  (forall b, seen (heap s') (held s' [v]) b -> seen (heap s) (held s [v]) b).
Proof.
  intros PV X L. destruct (space_good s [v] []) as (G & BS & MV).
  { intros a []. } { intros a l u b _ _ _ []. } { intros m a _ []. }
  assert (mine (fun a => In a []) (space s [v] []) (strings s [v] []) v) as Mv by (apply MV; [now left|intros b; now apply hptr_views]).
  assert (good (fun a => In a []) (space s [v] []) (strings s [v] []) (heap s) s') as G'.
  { eapply sure_leaves; [|exact G|exact L]. apply X; auto. intros a La. now right. }
  assert (forall a, reach (heap s') (held s' [v]) a -> space s [v] [] a) as R'.
  { intros a R. destruct (good_reach _ _ _ _ _ (held s' [v]) G' BS) with (a := a) as [Sa|[]]; auto.
    intros b [(w & [<-|[]] & Hb)|[m Hb]]; [apply Mv; exact Hb|]. left. eapply good_free; eauto. }
  pose proof G' as [(L1 & C1 & K1) F1]. split; [exact L1|]. split; [|split].
  - intros a La NR. apply K1. intros [[R _]|L2]; [auto|lia].
  - intros a R. destruct (R' a R) as [[R0 _]|L0]; auto.
  - intros b (a & o & x0 & R & N & Hx & Hb). destruct (C1 a o (R' a R) N) as [C2 _]. destruct (C2 x0 Hx) as [_ C3]. destruct (C3 b Hb) as [|[]]; auto.
Qed.

(** * C39 *)
(** UnmarshalVT, however it ends, changes no object that is not reachable from its
    receiver or from the pools; afterwards the receiver and the pools reach, of the
    objects that were there before, only what they reached before; and no string of them
    aliases a byte array it did not alias before. *)
Theorem C39_touches : forall sc grow uunm uext m p v s s',
  up_confined uunm -> up_confined uext -> hptr v ->
  leaves (hUnmarshal sc false grow uunm uext m p v s) s' ->
  (forall a, (a < length (heap s))%nat -> ~ reach (heap s) (held s [v]) a -> nth_error (heap s') a = nth_error (heap s) a) /\
  (forall a, reach (heap s') (held s' [v]) a -> reach (heap s) (held s [v]) a \/ (length (heap s) <= a)%nat) /\
  (forall b, seen (heap s') (held s' [v]) b -> seen (heap s) (held s [v]) b).
Proof.
  intros sc grow uunm uext m p v s s' UC XC PV L. apply (touch (hUnmarshal sc false grow uunm uext m p v) v s s' PV); auto.
  intros B S V h0 SN BS NB Mv. apply sure_msg; auto. discriminate.
Qed.
Print Assumptions C39_touches.

Lemma reads_within P V h t : forall v (Q W : nat -> Prop), (forall a, In a (addrs v) -> Q a) -> (forall a, In a (views v) -> W a) ->
  (forall a o x, Q a -> nth_error h a = Some o -> In x (vars o) -> (forall b, In b (addrs x) -> Q b) /\ (forall b, In b (views x) -> W b)) ->
  reads P V h t v -> reads (fun a => P a /\ Q a) (fun a => V a /\ W a) h t v.
Proof.
  induction t using val_tree_ind; intros v Q W RQ RW CQ R; auto.
  - cbn [reads] in *. destruct v; cbn [reads_string] in *; try contradiction; auto. destruct R as (Va & R). split; auto. split; auto. apply RW. now left.
  - cbn [reads] in *. destruct v; cbn [reads_bytes] in *; try contradiction. destruct R as (Pa & R). split; auto. split; auto. apply RQ. now left.
  - cbn [reads] in *. destruct R as (a & y & -> & Pa & N & R). assert (Q a) as Qa by (apply RQ; now left). destruct (CQ a _ y Qa N (or_introl eq_refl)).
    exists a, y. repeat (split; auto).
  - rewrite reads_list in *. destruct R as (a & off & len & cap & es & es' & -> & Pa & N & S & F). assert (Q a) as Qa by (apply RQ; now left). exists a, off, len, cap, es, es'. repeat (split; auto).
    assert (forall y, In y es' -> In y es) as Sub by (destruct S as [_ ->]; intros y Hy; apply (firstn_skipn_in off len es y Hy)).
    clear S. revert Sub. induction F as [|x y l l' Rx F IH]; intros Sub; constructor.
    + destruct (CQ a _ y Qa N) as [C1 C2]; [apply Sub; now left|]. apply H; auto. now left.
    + apply IH; [intros; apply H; auto; now right|]. intros; apply Sub; now right.
  - rewrite reads_map in *. destruct R as (a & es & -> & Pa & N & F). assert (Q a) as Qa by (apply RQ; now left). exists a, es. repeat (split; auto).
    assert (forall e, In e es -> In (fst e) (vars (OMap es)) /\ In (snd e) (vars (OMap es))) as Sub.
    { intros e He. cbn [vars]. split; apply in_or_app; [left|right]; now apply in_map. }
    set (o := OMap es) in *. clearbody o. revert Sub. induction F as [|x y l l' [R1 R2] F IH]; intros Sub; constructor.
    + destruct (H x (or_introl eq_refl)) as [H1 H2]. destruct (Sub y (or_introl eq_refl)) as [S1 S2]. destruct (CQ a o (fst y) Qa N S1), (CQ a o (snd y) Qa N S2). split; [apply H1|apply H2]; auto.
    + apply IH; [intros; apply H; now right|]. intros e He; apply Sub; now right.
  - cbn [reads] in *. destruct R as (a & y & -> & Pa & N & R). assert (Q a) as Qa by (apply RQ; now left). destruct (CQ a _ y Qa N (or_introl eq_refl)).
    exists a, y. repeat (split; auto).
  - rewrite reads_msg in *. destruct R as (Hh & a & hs & w & -> & Pa & N & U & F). assert (Q a) as Qa by (apply RQ; now left). split; auto. exists a, hs, w. split; auto. split; auto. split; auto. split.
    + destruct U as [U|U]; [now left|right]. destruct w; try contradiction. destruct U as [Pw U]. split; auto. split; auto. destruct (CQ a _ (HSlice a0 off len cap) Qa N (or_introl eq_refl)) as [C1 _]. apply C1. now left.
    + assert (forall y, In y hs -> In y (vars (OMsg hs w))) as Sub by (intros y Hy; now right).
      set (o := OMsg hs w) in *. clearbody o. clear U. revert Sub. induction F as [|x y l' l'' Rx F IH]; intros Sub; constructor.
      * destruct (CQ a o y Qa N) as [C1 C2]; [apply Sub; now left|]. apply H; auto. now left.
      * apply IH; [intros; apply H; auto; now right|]. intros z Hz; apply Sub; now right.
Qed.

(** For an input buffer that is not part of the receiver (or of pooled messages): the
    call does not change it, and overwriting it afterwards does not change what the
    receiver holds. *)
Theorem C39_buffer : forall sc grow uunm uext m p v s s',
  up_confined uunm -> up_confined uext -> hptr v ->
  (in_arr p < length (heap s))%nat -> ~ reach (heap s) (held s [v]) (in_arr p) -> ~ seen (heap s) (held s [v]) (in_arr p) ->
  leaves (hUnmarshal sc false grow uunm uext m p v s) s' ->
  nth_error (heap s') (in_arr p) = nth_error (heap s) (in_arr p) /\
  forall t o (P V : nat -> Prop), reads P V (heap s') t v -> reads P V (Unmarshal.list_set (heap s') (in_arr p) o) t v.
Proof.
  intros sc grow uunm uext m p v s s' UC XC PV LA NR NS L. destruct (C39_touches sc grow uunm uext m p v s s' UC XC PV L) as (T1 & T2 & T3).
  split; [now apply T1|]. intros t o P V R.
  apply (reads_within _ _ _ t v (reach (heap s') (held s' [v])) (seen (heap s') (held s' [v]))) in R.
  - revert R. apply reads_mono.
    + intros a o' [Pa Ra] N. split; auto. rewrite nth_error_set_neq; auto. intros <-. destruct (T2 _ Ra); [auto|lia].
    + intros a o' [Va Ra] N. split; auto. rewrite nth_error_set_neq; auto. intros <-. apply NS. now apply T3.
  - intros a Ha. apply reach_root. left. exists v. split; [now left|exact Ha].
  - intros a Ha. destruct (hptr_views v a PV Ha).
  - intros a o' x Ra N Hx. split; intros b Hb; [eapply reach_next; eauto; exists x; auto|exists a, o', x; auto].
Qed.
Print Assumptions C39_buffer.

(** ReturnToVTPool, too, changes only what the message and the pools reach. *)
Theorem C53_return : forall sc n m v s s',
  hptr v -> leaves (hReturnToVTPool sc n m v s) s' ->
  (forall a, (a < length (heap s))%nat -> ~ reach (heap s) (held s [v]) a -> nth_error (heap s') a = nth_error (heap s) a) /\
  (forall a, reach (heap s') (held s' [v]) a -> reach (heap s) (held s [v]) a \/ (length (heap s) <= a)%nat) /\
  (forall b, seen (heap s') (held s' [v]) b -> seen (heap s) (held s [v]) b).
Proof.
  intros sc n m v s s' PV L. apply (touch (hReturnToVTPool sc n m v) v s s' PV); auto.
  intros B S V h0 SN BS NB Mv. apply sure_return; auto. intros; now apply sure_reset.
Qed.
Print Assumptions C53_return.

(** * C53 *)
(** A program that decodes with UnmarshalVTUnsafe only never changes the buffers, whatever
    messages it makes, reuses, returns to the pools and takes from them. *)
Theorem C53_unsafe_keeps : forall sc grow uunm uext bufs s vs s' vs',
  up_confined uunm -> up_confined uext ->
  arrays bufs (heap s) -> unk_apart bufs (heap s) (held s vs) -> (forall m a, In (m, a) (free s) -> ~ In a bufs) -> (forall v, In v vs -> hptr v) ->
  history sc grow uunm uext bufs s vs s' vs' ->
  forall a, In a bufs -> nth_error (heap s') a = nth_error (heap s) a.
Proof.
  intros sc grow uunm uext bufs s vs s' vs' UC XC AB UA FB PV H.
  destruct (space_good s vs bufs AB UA FB) as (G & BS & MV).
  assert (forall b, (length (heap s) <= b)%nat -> space s vs bufs b) as SN by (intros b Lb; now right).
  set (B := fun a => In a bufs) in *. set (S := space s vs bufs) in *. set (V := strings s vs bufs) in *.
  assert (good B S V (heap s) s' /\ forall v, In v vs' -> mine B S V v) as [(( _ & _ & K) & _) _].
  { induction H as [|m s1 vs1 a s2 H [G1 M1] E|m s1 vs1 a s2 H [G1 M1] E|m p v s1 vs1 s2 H [G1 M1] Hv Hp L|n m v s1 vs1 s2 H [G1 M1] Hv L].
    - split; auto. intros v Hv. apply MV; auto. intros b. apply hptr_views; auto.
    - destruct (ms_alloc _ _ _ _ SN _ (mine_new _ _ _ _) s1 a s2 G1 E) as [G2 Sa]. split; auto. intros w [<-|Hw]; auto. split; [intros b [<-|[]]; now left|intros b []].
    - destruct (ms_Alloc _ _ _ _ _ SN m s1 a s2 G1 E) as [G2 Sa]. split; auto. intros w [<-|Hw]; auto. split; [intros b [<-|[]]; now left|intros b []].
    - split; auto. eapply sure_leaves; [|exact G1|exact L]. apply sure_msg; auto; [discriminate|]. intros _. split; [exact Hp|now right].
    - split; auto. eapply sure_leaves; [|exact G1|exact L]. apply sure_return; auto. intros; now apply sure_reset. }
  intros a Ha. apply K. now apply BS.
Qed.
Print Assumptions C53_unsafe_keeps.

(** * Examples *)
(** A decoder that meets the contract of upstream: it keeps its whole input as unknown
    fields. *)
Definition ex_uunm (m a : nat) (bs : list Z) (h : list obj) : bool * list obj :=
  match nth_error h a with
  | Some (OMsg l u) => (true, Unmarshal.list_set (h ++ [OBytes bs]) a (OMsg l (HSlice (length h) 0 (length bs) (length bs))))
  | _ => (false, h)
  end.
Lemma ex_confined : up_confined ex_uunm.
Proof.
  intros m a bs h B S V SN BS C Sa. unfold ex_uunm.
  destruct (nth_error h a) as [[| | | | |l u]|] eqn:N; cbn [snd]; try (split; [lia|]; split; [exact C|reflexivity]).
  pose proof (nth_error_lt h a _ N) as L. split; [rewrite list_set_length, app_length; lia|]. split.
  - intros b o Sb E. destruct (Nat.eq_dec a b) as [<-|NE].
    + rewrite nth_error_set_eq in E by (rewrite app_length; lia). injection E as <-. destruct (C a _ Sa N) as [C1 _]. split.
      * intros x [<-|Hx]; [split; [intros b [<-|[]]; left; auto|intros b []]|apply C1; now right].
      * intros l' u' b E. injection E as <- <-. intros [<-|[]]. auto.
    + rewrite nth_error_set_neq in E by auto. destruct (Nat.lt_ge_cases b (length h)) as [Lb|Lb].
      * rewrite nth_error_app1 in E by auto. eauto.
      * rewrite nth_error_app2 in E by auto. destruct (b - length h)%nat as [|k]; [|destruct k; discriminate]. injection E as <-. split; [intros x []|discriminate].
  - intros b Nb. rewrite nth_error_set_neq by congruence. destruct (Nat.lt_ge_cases b (length h)) as [Lb|Lb]; [now apply nth_error_app1|]. destruct Nb. auto.
Qed.
(** Buffers at 0 and 1, a new Node at 2: the field b = 3 of the first buffer is the four
    bytes 1 2 3 4 followed by a string, in the second it is 9 8 7 6. *)
Definition hd_buf1 : list Z := [26; 4; 1; 2; 3; 4; 18; 2; 97; 98; 42; 3; 10; 1; 99].
Definition hd_buf2 : list Z := [26; 4; 9; 8; 7; 6; 18; 1; 120].
Definition hd_mem : mem := mkMem [OBytes hd_buf1; OBytes hd_buf2; new_obj (md_of pl_sc 0)] [] [0%nat].
Definition hd_in (a : nat) (b : list Z) : input := mkIn a 0 (length b) (length b).
Definition hd_run (unsafe : bool) (p : input) (s : mem) : out unit :=
  hUnmarshal pl_sc unsafe (fun n => 2 * n)%nat ex_uunm ex_uunm 0 p (HPtr 2) s.
Lemma hd_reach a : reach (heap hd_mem) (held hd_mem [HPtr 2]) a -> a = 2%nat.
Proof.
  intros R. induction R as [a [(v & [<-|[]] & [<-|[]])|[m []]]|a o b R -> N (x & Hx & Hb)]; auto. cbn in N. injection N as <-.
  vm_compute in Hx. repeat (destruct Hx as [<-|Hx]; [destruct Hb|]). destruct Hx.
Qed.
Lemma hd_unseen b : ~ seen (heap hd_mem) (held hd_mem [HPtr 2]) b.
Proof.
  intros (a & o & x & R & N & Hx & Hb). apply hd_reach in R. subst. cbn in N. injection N as <-.
  vm_compute in Hx. repeat (destruct Hx as [<-|Hx]; [destruct Hb|]). destruct Hx.
Qed.
(** UnmarshalVT of the first buffer: the message holds the values, the buffer stays and
    may be overwritten. *)
Example C39_example : exists s',
  hptr (HPtr 2) /\ up_confined ex_uunm /\ ~ reach (heap hd_mem) (held hd_mem [HPtr 2]) 0 /\ ~ seen (heap hd_mem) (held hd_mem [HPtr 2]) 0 /\
  hd_run false (hd_in 0 hd_buf1) hd_mem = Done tt s' /\ nth_error (heap s') 0 = Some (OBytes hd_buf1) /\
  reads (fun _ => True) (fun _ => True) (Unmarshal.list_set (heap s') 0 (OBytes [])) (VMsg [VNil; VStr [97; 98]; VBytes [1; 2; 3; 4]; VNil; VList [VMsg [VStr [99]] [] []]] [] []) (HPtr 2).
Proof.
  eexists. split; [right; eauto|]. split; [apply ex_confined|]. split; [intros R; now apply hd_reach in R|]. split; [apply hd_unseen|].
  split; [vm_compute; reflexivity|]. split; [reflexivity|]. cbn. read_example.
Qed.
(** A history for [C53_unsafe_keeps]: decode the first buffer, return the message, take a
    message (the same), decode the second buffer. *)
Definition left_by {A} (o : out A) : mem := match o with Done _ s | Fail _ s | Crash s => s | Stuck => hd_mem end.
Definition hd_s1 : mem := left_by (hd_run true (hd_in 0 hd_buf1) hd_mem).
Definition hd_s2 : mem := left_by (hReturnToVTPool pl_sc 3 0 (HPtr 2) hd_s1).
Definition hd_s3 : mem := match Alloc pl_sc 0 hd_s2 with Some (_, s) => s | None => hd_mem end.
Definition hd_s4 : mem := left_by (hd_run true (hd_in 1 hd_buf2) hd_s3).
Example C53_example :
  arrays [0; 1]%nat (heap hd_mem) /\ unk_apart [0; 1]%nat (heap hd_mem) (held hd_mem [HPtr 2]) /\
  history pl_sc (fun n => 2 * n)%nat ex_uunm ex_uunm [0; 1]%nat hd_mem [HPtr 2] hd_s4 [HPtr 2; HPtr 2] /\
  reads (fun _ => True) (fun _ => True) (heap hd_s4) (VMsg [VNil; VStr [120]; VBytes [9; 8; 7; 6]; VNil; VList []] [] []) (HPtr 2) /\
  nth_error (heap hd_s4) 0 = Some (OBytes hd_buf1).
Proof.
  split; [intros a [<-|[<-|[]]]; cbn; eauto|]. split.
  { intros a l u b R N Hb. apply hd_reach in R. subst. cbn in N. injection N as <- <-. destruct Hb. }
  split.
  - apply h_decode with (p := hd_in 1 hd_buf2) (v := HPtr 2) (m := 0%nat) (s1 := hd_s3); [|now left|right; now left|vm_compute; reflexivity].
    apply h_take with (m := 0%nat) (a := 2%nat) (s1 := hd_s2); [|vm_compute; reflexivity].
    apply h_return with (n := 3%nat) (m := 0%nat) (v := HPtr 2) (s1 := hd_s1); [|now left|vm_compute; reflexivity].
    apply h_decode with (p := hd_in 0 hd_buf1) (v := HPtr 2) (m := 0%nat) (s1 := hd_mem); [apply h_start|now left|now left|vm_compute; reflexivity].
  - split; [|vm_compute; reflexivity]. let h := eval vm_compute in (heap hd_s4) in change (heap hd_s4) with h. cbn. read_example.
Qed.

(** But a message that was decoded with UnmarshalVTUnsafe and is decoded into again with
    UnmarshalVT changes the first buffer: the bytes field still refers to it, and
    UnmarshalVT appends to the field cut to length 0. *)
Theorem C53_mixed_refuted : exists sc grow uunm uext m p1 p2 v s s1 s2,
  up_confined uunm /\ up_confined uext /\ wf_schema sc = true /\ hptr v /\ in_arr p1 <> in_arr p2 /\
  ~ reach (heap s) (held s [v]) (in_arr p1) /\ ~ reach (heap s) (held s [v]) (in_arr p2) /\
  hUnmarshal sc true grow uunm uext m p1 v s = Done tt s1 /\
  hUnmarshal sc false grow uunm uext m p2 v s1 = Done tt s2 /\
  nth_error (heap s2) (in_arr p1) <> nth_error (heap s) (in_arr p1).
Proof.
  exists pl_sc, (fun n => 2 * n)%nat, ex_uunm, ex_uunm, 0%nat, (hd_in 0 hd_buf1), (hd_in 1 hd_buf2), (HPtr 2), hd_mem, hd_s1, (left_by (hd_run false (hd_in 1 hd_buf2) hd_s1)).
  split; [apply ex_confined|]. split; [apply ex_confined|]. split; [apply pl_wf|]. split; [right; eauto|]. split; [discriminate|].
  split; [intros R; now apply hd_reach in R|]. split; [intros R; now apply hd_reach in R|].
  split; [vm_compute; reflexivity|]. split; [vm_compute; reflexivity|]. vm_compute. discriminate.
Qed.
Print Assumptions C53_mixed_refuted.
(** The same through a pool, where the second user need not know of the first: decode with
    UnmarshalVTUnsafe, ReturnToVTPool, FromVTPool, UnmarshalVT. *)
Theorem C53_pool_refuted : exists sc grow uunm uext n m p1 p2 v s s1 s2 a s3 s4,
  up_confined uunm /\ up_confined uext /\ wf_schema sc = true /\ hptr v /\ in_arr p1 <> in_arr p2 /\
  ~ reach (heap s) (held s [v]) (in_arr p1) /\ ~ reach (heap s) (held s [v]) (in_arr p2) /\
  hUnmarshal sc true grow uunm uext m p1 v s = Done tt s1 /\
  hReturnToVTPool sc n m v s1 = Done tt s2 /\
  Alloc sc m s2 = Some (a, s3) /\
  hUnmarshal sc false grow uunm uext m p2 (HPtr a) s3 = Done tt s4 /\
  nth_error (heap s4) (in_arr p1) <> nth_error (heap s) (in_arr p1).
Proof.
  exists pl_sc, (fun n => 2 * n)%nat, ex_uunm, ex_uunm, 3%nat, 0%nat, (hd_in 0 hd_buf1), (hd_in 1 hd_buf2), (HPtr 2), hd_mem, hd_s1, hd_s2, 2%nat, hd_s3, (left_by (hd_run false (hd_in 1 hd_buf2) hd_s3)).
  split; [apply ex_confined|]. split; [apply ex_confined|]. split; [apply pl_wf|]. split; [right; eauto|]. split; [discriminate|].
  split; [intros R; now apply hd_reach in R|]. split; [intros R; now apply hd_reach in R|].
  split; [vm_compute; reflexivity|]. split; [vm_compute; reflexivity|]. split; [vm_compute; reflexivity|]. split; [vm_compute; reflexivity|]. vm_compute. discriminate.
Qed.
Print Assumptions C53_pool_refuted.
