(** C57: goroutines that share pools do not disturb each other. *)
From Coq Require Import ZArith List Bool Lia.
From Verif Require Import PoolSpec.
From Verif Require Import Heap HeapSpec HeapDec HeapOwnSpec HeapOwnFacts HeapSim HeapSimRun HeapNil HeapCloneSpec HeapHist HeapHistFacts HeapPar HeapParFacts.
From Verif Require Import Base Schema Value Typing RecordSpec MsgSpec DecodeSpec ContentSpec CloneSpec Unmarshal Marshal Size Equal Clone Pool PoolFacts RunRel EncRel.
From Verif Require Import PropsPool PropsHeap PropsHeapSim PropsHeapHist.
Import ListNotations.
Open Scope Z_scope.

(** [n] goroutines that have nothing yet; [ps] are the choices sync.Pool will make. *)
Definition start (n : nat) (ps : list nat) : system := System (mkMem [] [] ps) (repeat (View [] []) n).
Definition blank (n : nat) : list desk := repeat blank_desk n.
(** [zone t i] are the objects of the [i]-th message of goroutine [t]: every message of
    every goroutine has its own, no buffer of any goroutine lies there, and no object in a
    pool. *)
Definition apart (y : system) (zone : nat -> nat -> nat -> Prop) : Prop :=
  (forall t i t' i' b, zone t i b -> zone t' i' b -> t = t' /\ i = i') /\
  (forall t i b v, zone t i b -> In v (y_views y) -> ~ In b (v_bufs v)) /\
  (forall t i m b, zone t i b -> ~ In (m, b) (free (y_mem y))).

Lemma nodup_flat {A B} (f : A -> list B) l : NoDup (flat_map f l) -> forall t t' i i' x x' b, nth_error l t = Some x -> nth_error l t' = Some x' ->
  nth_error (f x) i = Some b -> nth_error (f x') i' = Some b -> t = t' /\ i = i'.
Proof.
  induction l as [|y l IH]; intros N t t' i i' x x' b; [destruct t; discriminate|]. cbn in N.
  assert (forall t x i, nth_error l t = Some x -> nth_error (f x) i = Some b -> In b (flat_map f l)) as Hin by (intros u z j E E'; apply in_flat_map; exists z; split; eapply nth_error_In; eauto).
  assert (forall i, nth_error (f y) i = Some b -> ~ In b (flat_map f l)) as Hout.
  { intros j E H. apply nth_error_In in E. clear - N E H. induction (f y) as [|z r IHr]; [destruct E|]. cbn in N. inversion N; subst. destruct E as [->|E]; [|auto]. apply H2. apply in_or_app. auto. }
  destruct t, t'; cbn; intros E E' Ei Ei'.
  - injection E as ->. injection E' as ->. split; [reflexivity|]. assert (NoDup (f x')) as N1.
    { clear - N. induction (f x') as [|z r IHr]; [constructor|]. cbn in N. inversion N; subst. constructor; [|auto]. intros H. apply H1. apply in_or_app. auto. }
    apply (proj1 (NoDup_nth_error (f x')) N1); [apply nth_error_Some; congruence|congruence].
  - injection E as ->. exfalso. eapply Hout; eauto.
  - injection E' as ->. exfalso. eapply Hout; eauto.
  - assert (NoDup (flat_map f l)) as N1 by (clear - N; induction (f y) as [|z r IHr]; [exact N|]; cbn in N; inversion N; auto).
    destruct (IH N1 t t' i i' x x' b E E' Ei Ei') as [-> ->]. auto.
Qed.
Definition zone_of (pc : nat -> nat) (y : system) (t i b : nat) : Prop :=
  exists v m a, nth_error (y_views y) t = Some v /\ nth_error (v_msgs v) i = Some (m, a) /\ pc b = S a.
Lemma zones_apart sc pc s ths : sinv sc pc s ths -> apart (sys s ths) (zone_of pc (sys s ths)).
Proof.
  intros I. assert (forall t i b, zone_of pc (sys s ths) t i b -> exists th m a y, nth_error ths t = Some th /\ nth_error (fst th) i = Some ((m, a), y) /\ pc b = S a /\ In ((m, a), y) (flat_map fst ths)) as Z.
  { intros t i b (v & m & a & Ev & Ei & E). cbn [sys y_views] in Ev. rewrite nth_error_map in Ev. destruct (nth_error ths t) as [th|] eqn:Et; [|discriminate]. injection Ev as <-. cbn [lv v_msgs] in Ei.
    rewrite nth_error_map in Ei. destruct (nth_error (fst th) i) as [[x y]|] eqn:Ex; [|discriminate]. injection Ei as ->. exists th, m, a, y. split; [reflexivity|]. split; [exact Ex|]. split; [exact E|].
    apply in_flat_map. exists th. split; eapply nth_error_In; eauto. }
  split; [|split].
  - intros t i t' i' b H H'. apply Z in H as (th & m & a & y & Et & Ei & E & _). apply Z in H' as (th' & m' & a' & y' & Et' & Ei' & E' & _). assert (a = a') as <- by congruence.
    apply (nodup_flat (fun th : thread => map (fun p => snd (fst p)) (fst th)) ths) with (x := th) (x' := th') (b := a); auto.
    + pose proof (i_held _ _ _ _ I) as N. cbn [w_msgs] in N. rewrite map_map in N. rewrite flat_map_concat_map in N. rewrite concat_map, map_map in N. now rewrite flat_map_concat_map.
    + now rewrite nth_error_map, Ei.
    + now rewrite nth_error_map, Ei'.
  - intros t i b v H Hv Hb. apply Z in H as (th & m & a & y & _ & _ & E & _). cbn [sys y_views] in Hv. apply in_map_iff in Hv as (th' & <- & Hth). cbn [lv v_bufs] in Hb.
    apply in_map_iff in Hb as ([x bs] & <- & Hx). cbn [fst] in E. pose proof (i_bufs _ _ _ _ I) as X. cbn [w_bufs d_bufs] in X. apply f2_pairs in X.
    assert (In (x, bs) (flat_map snd ths)) as Hf by (apply in_flat_map; eauto). pose proof (proj1 (Forall_forall _ _) X _ Hf) as (_ & Z0 & _). cbn [fst] in Z0. congruence.
  - intros t i m b H Hb. apply Z in H as (th & m' & a & y & _ & _ & E & Hin). assert (pc b = S b) as E' by (eapply pool_color; [exact I|]; apply in_map_iff; exists (m, b); auto). assert (a = b) as -> by congruence.
    apply (i_apart _ _ _ _ I b).
    + cbn [w_msgs]. rewrite map_map. apply in_map_iff. exists ((m', b), y). auto.
    + cbn [w_mem sys y_mem] in *. apply in_map_iff. exists (m, b). auto.
Qed.

Lemma start_sys n ps : sys (mkMem [] [] ps) (repeat ([], []) n) = start n ps.
Proof. unfold sys, start. f_equal. induction n as [|n IH]; [reflexivity|]. cbn [repeat map]. rewrite IH. reflexivity. Qed.
Lemma blank_desks n : map rd (repeat ([], []) n) = blank n.
Proof. unfold blank. induction n as [|n IH]; [reflexivity|]. cbn [repeat map]. rewrite IH. reflexivity. Qed.
Definition at_each {A B} (l : list A) (l' : list B) (R : nat -> A -> B -> Prop) : Prop := at_both l l' R.
Lemma each_thread (ths : list thread) (R : nat -> view -> desk -> Prop) : (forall t th, nth_error ths t = Some th -> R t (lv th) (rd th)) -> at_each (map lv ths) (map rd ths) R.
Proof. intros H t. rewrite !nth_error_map. destruct (nth_error ths t) eqn:E; cbn; auto. Qed.
Lemma each_pair {A B} (l : list (A * B)) (R : nat -> A -> B -> Prop) : (forall i p, nth_error l i = Some p -> R i (fst p) (snd p)) -> at_both (map fst l) (map snd l) R.
Proof. intros H t. rewrite !nth_error_map. destruct (nth_error l t) eqn:E; cbn; auto. Qed.

(** Whatever the goroutines do (as in C55) and hand to each other, in whatever order they
    come to run, and whatever sync.Pool does, nothing panics and every call of every
    goroutine ends as it does without pools, on values: same errors, same buffers, as many
    messages. *)
Theorem C57_same_errors : forall sc grow uunm uext uclone n ps evs,
  pools_ok sc uunm uext uclone -> Forall (event_ok sc) evs ->
  exists y, hevents sc grow uunm uext uclone evs (start n ps) = Some (fst (pevents sc evs (blank n)), y) /\
    at_each (y_views y) (snd (pevents sc evs (blank n))) (fun _ v d =>
      map fst (v_msgs v) = map fst (d_msgs d) /\
      at_both (v_bufs v) (d_bufs d) (fun _ a bs => nth_error (heap (y_mem y)) a = Some (OBytes bs))).
Proof.
  intros sc grow uunm uext uclone n ps evs (W & PL & UD & UC & UN & UU & UE & UCL & UCM & UK) K.
  destruct (events_follow sc W UD UC UN PL grow uunm uext uclone UU UE UCL UCM UK evs _ _ _ (sinv_start sc n ps) K) as (s & ths & pc & E & Ed & I).
  assert (sys (mkMem [] [] ps) (repeat ([], []) n) = start n ps) as E0 by apply start_sys.
  assert (map rd (repeat ([], []) n) = blank n) as E1 by apply blank_desks. rewrite E0, E1 in *.
  exists (sys s ths). split; [exact E|]. rewrite Ed. apply each_thread. intros t th Et. cbn [lv rd v_msgs v_bufs d_msgs d_bufs sys y_mem]. split.
  - pose proof (i_msgs _ _ _ _ I) as X. cbn [w_msgs d_msgs] in X. apply f2_pairs in X. rewrite !map_map. apply map_ext_in. intros p Hp.
    assert (In p (flat_map fst ths)) as Hf by (apply in_flat_map; exists th; split; [eapply nth_error_In; eauto|exact Hp]). apply (proj1 (Forall_forall _ _) X _ Hf).
  - apply each_pair. intros i p Ei. pose proof (i_bufs _ _ _ _ I) as X. cbn [w_bufs d_bufs] in X. apply f2_pairs in X.
    assert (In p (flat_map snd ths)) as Hf by (apply in_flat_map; exists th; split; eapply nth_error_In; eauto). apply (proj1 (Forall_forall _ _) X _ Hf).
Qed.
Print Assumptions C57_same_errors.

(** If no pooled message has a bytes field with presence (C36), the messages of every
    goroutine also have the content they would have without pools, and no two messages
    of any goroutines share memory. *)
Theorem C57_same_content_partial : forall sc grow uunm uext uclone n ps evs,
  pools_ok sc uunm uext uclone -> no_optional_bytes sc -> Forall (event_ok sc) evs ->
  exists y zone, hevents sc grow uunm uext uclone evs (start n ps) = Some (fst (pevents sc evs (blank n)), y) /\ apart y zone /\
    at_each (y_views y) (snd (pevents sc evs (blank n))) (fun t v d =>
      at_both (v_msgs v) (d_msgs d) (fun i x z =>
        fst x = fst z /\ exists tr, owns true true false none (heap (y_mem y)) (zone t i) tr (HPtr (snd x)) /\ wt_msg sc (fst x) tr /\ same_content sc (fst x) tr (snd z))).
Proof.
  intros sc grow uunm uext uclone n ps evs (W & PL & UD & UC & UN & UU & UE & UCL & UCM & UK) N K.
  destruct (events_follow sc W UD UC UN PL grow uunm uext uclone UU UE UCL UCM UK evs _ _ _ (sinv_start sc n ps) K) as (s & ths & pc & E & Ed & I).
  assert (sys (mkMem [] [] ps) (repeat ([], []) n) = start n ps) as E0 by apply start_sys.
  assert (map rd (repeat ([], []) n) = blank n) as E1 by apply blank_desks. rewrite E0, E1 in *.
  exists (sys s ths). eexists. split; [exact E|]. split; [eapply zones_apart; exact I|]. rewrite Ed. apply each_thread. intros t th Et. cbn [lv rd v_msgs d_msgs sys y_mem]. apply each_pair. intros i p Ei.
  pose proof (i_msgs _ _ _ _ I) as X. cbn [w_msgs d_msgs] in X. apply f2_pairs in X.
  assert (In p (flat_map fst ths)) as Hf by (apply in_flat_map; exists th; split; eapply nth_error_In; eauto).
  destruct (proj1 (Forall_forall _ _) X _ Hf) as (Em & F & T & tr & [R Nn] & O). destruct p as [[m a] [m' y]]. cbn [fst snd] in *. subst m'. split; [reflexivity|]. exists tr. split; [|split].
  - eapply own_mono; [|exact O]. unfold mine, zone_of. intros b Hb. exists (lv th), m, a. cbn [sys y_views lv v_msgs]. rewrite !nth_error_map, Et, Ei. auto.
  - eapply rs_wt; eauto. apply T.
  - apply rs_content; auto. destruct T as [T _]. intros ->. inversion T.
Qed.
Print Assumptions C57_same_content_partial.

(** If nothing is handed over, every goroutine sees what it would see if it ran alone and
    without pools: the results of its calls do not depend on the others, the scheduler or
    the pools; nor does the content of its messages. *)
Theorem C57_alone : forall sc grow uunm uext uclone n ps evs t,
  pools_ok sc uunm uext uclone -> Forall (event_ok sc) evs -> Forall is_act evs -> (t < n)%nat ->
  exists es y, hevents sc grow uunm uext uclone evs (start n ps) = Some (es, y) /\ sees t evs es = fst (prun sc (acts t evs) blank_desk).
Proof.
  intros sc grow uunm uext uclone n ps evs t H K A Ht. destruct (C57_same_errors sc grow uunm uext uclone n ps evs H K) as (y & E & _). eexists. eexists. split; [exact E|].
  apply (alone sc t evs (blank n) blank_desk A). unfold blank. now apply nth_error_repeat.
Qed.
Print Assumptions C57_alone.
Theorem C57_alone_content_partial : forall sc grow uunm uext uclone n ps evs t,
  pools_ok sc uunm uext uclone -> no_optional_bytes sc -> Forall (event_ok sc) evs -> Forall is_act evs -> (t < n)%nat ->
  exists es y v zone, hevents sc grow uunm uext uclone evs (start n ps) = Some (es, y) /\ nth_error (y_views y) t = Some v /\ apart y zone /\
    at_both (v_msgs v) (d_msgs (snd (prun sc (acts t evs) blank_desk))) (fun i x z =>
      fst x = fst z /\ exists tr, owns true true false none (heap (y_mem y)) (zone t i) tr (HPtr (snd x)) /\ wt_msg sc (fst x) tr /\ same_content sc (fst x) tr (snd z)).
Proof.
  intros sc grow uunm uext uclone n ps evs t H N K A Ht. destruct (C57_same_content_partial sc grow uunm uext uclone n ps evs H N K) as (y & zone & E & Ap & C).
  assert (nth_error (blank n) t = Some blank_desk) as Et by (unfold blank; now apply nth_error_repeat). destruct (alone sc t evs (blank n) blank_desk A Et) as [_ Ed].
  specialize (C t). rewrite Ed in C. destruct (nth_error (y_views y) t) as [v|] eqn:Ev; [|contradiction]. exists (fst (pevents sc evs (blank n))), y, v, zone. auto.
Qed.
Print Assumptions C57_alone_content_partial.

(** While a goroutine runs an operation, no object of a message of another goroutine
    changes, and none of its buffers: the messages of the others keep their memory and
    their content. *)
Theorem C57_untouched : forall sc grow uunm uext uclone n ps evs t o,
  pools_ok sc uunm uext uclone -> Forall (event_ok sc) evs -> op_ok sc o ->
  exists es y e y' zone zone', hevents sc grow uunm uext uclone evs (start n ps) = Some (es, y) /\ hevent sc grow uunm uext uclone (Act t o) y = Some (e, y') /\
    apart y zone /\ apart y' zone' /\
    forall t' v, nth_error (y_views y) t' = Some v ->
      (forall i m a, nth_error (v_msgs v) i = Some (m, a) -> exists tr, owns true true false none (heap (y_mem y)) (zone t' i) tr (HPtr a) /\ wt_msg sc m tr) /\
      (t' <> t -> nth_error (y_views y') t' = Some v /\
        (forall i b, zone t' i b -> zone' t' i b /\ nth_error (heap (y_mem y')) b = nth_error (heap (y_mem y)) b) /\
        (forall b, In b (v_bufs v) -> nth_error (heap (y_mem y')) b = nth_error (heap (y_mem y)) b)).
Proof.
  intros sc grow uunm uext uclone n ps evs t o (W & PL & UD & UC & UN & UU & UE & UCL & UCM & UK) K Ko.
  destruct (events_follow sc W UD UC UN PL grow uunm uext uclone UU UE UCL UCM UK evs _ _ _ (sinv_start sc n ps) K) as (s & ths & pc & E & Ed & I).
  assert (sys (mkMem [] [] ps) (repeat ([], []) n) = start n ps) as E0 by apply start_sys. rewrite E0 in *.
  destruct (event_follows sc W UD UC UN PL grow uunm uext uclone UU UE UCL UCM UK pc s ths (Act t o) I Ko) as (s' & ths' & pc' & E' & _ & I' & L).
  do 2 eexists. exists (fst (pevent sc (Act t o) (map rd ths))), (sys s' ths'), (zone_of pc (sys s ths)), (zone_of pc' (sys s' ths')).
  split; [exact E|]. split; [exact E'|]. split; [eapply zones_apart; exact I|]. split; [eapply zones_apart; exact I'|].
  intros t' v Ev. cbn [sys y_views y_mem] in *. rewrite nth_error_map in Ev. destruct (nth_error ths t') as [th|] eqn:Et; [|discriminate]. injection Ev as <-. split.
  - intros i m a Ei. cbn [lv v_msgs] in Ei. rewrite nth_error_map in Ei. destruct (nth_error (fst th) i) as [[x y]|] eqn:Ex; [|discriminate]. injection Ei as ->.
    pose proof (i_msgs _ _ _ _ I) as X. cbn [w_msgs d_msgs] in X. apply f2_pairs in X.
    assert (In ((m, a), y) (flat_map fst ths)) as Hf by (apply in_flat_map; exists th; split; eapply nth_error_In; eauto).
    destruct (proj1 (Forall_forall _ _) X _ Hf) as (Em & F & T & tr & [R Nn] & O). destruct y as [m' y]. cbn [fst snd] in *. subst m'. exists tr. split.
    + eapply own_mono; [|exact O]. unfold mine, zone_of. intros b Hb. exists (lv th), m, a. cbn [sys y_views lv v_msgs]. rewrite !nth_error_map, Et, Ex. auto.
    + eapply rs_wt; eauto. apply T.
  - intros Ne. destruct (L t' Ne th Et) as [[L1 L2] Et']. rewrite nth_error_map, Et'. split; [reflexivity|]. split.
    + intros i b (v & m & a & Ev & Ei & Eb). cbn [sys y_views] in Ev. rewrite nth_error_map, Et in Ev. injection Ev as <-. cbn [lv v_msgs] in Ei.
      rewrite nth_error_map in Ei. destruct (nth_error (fst th) i) as [[x y]|] eqn:Ex; [|discriminate]. injection Ei as ->.
      destruct (L1 m a y b (nth_error_In _ _ Ex) Eb) as [Eb' Eh]. split; [|exact Eh]. exists (lv th), m, a. cbn [sys y_views]. rewrite nth_error_map, Et'. cbn [option_map lv v_msgs]. rewrite nth_error_map, Ex. auto.
    + intros b Hb. cbn [lv v_bufs] in Hb. apply in_map_iff in Hb as ([x bs] & <- & Hx). eapply L2; eauto.
Qed.
Print Assumptions C57_untouched.

(** * Examples *)
(** Two goroutines on the schema of C55, their operations interleaved: the first returns
    its message to the pool while the second decodes; the second takes it, decodes into it
    and hands it to the first. *)
Definition par_evs : list event :=
  [ Act 0 (OBuffer hist_in); Act 1 (OBuffer hist_in2); Act 0 (OGet 0); Act 1 (OGet 1); Act 0 (OUnmarshal 0 0 0 26); Act 1 (OUnmarshal 0 0 14 2); Act 0 (OReturn 0);
    Act 1 (OGet 0); Act 1 (OUnmarshal 1 0 0 16); Act 0 (OGet 1); Act 1 (OSet 1 4 (VInt 5)); Act 0 (OWrite 0 hist_in2); Send 1 1 0; SendBuffer 1 0 0; Act 0 (OUnmarshal 1 1 0 26); Act 1 (OReturn 0); Act 0 (OClone 0) ].
Definition par_acts : list event := firstn 12 par_evs.
Definition par_end : option (list (option err) * system) := hevents hist_sc sim_grow sim_uunm sim_uext hist_uclone par_evs (start 2 hist_picks).
Example C57_nonvacuous :
  pools_ok hist_sc sim_uunm sim_uext hist_uclone /\ no_optional_bytes hist_sc /\ Forall (event_ok hist_sc) par_evs /\ Forall is_act par_acts.
Proof.
  split; [exact hist_ok|]. split; [apply C55_nonvacuous|]. split; repeat constructor.
Qed.
(** By computation: the second goroutine's message of type 0 is the object (address 2) the first
    returned; it ends as the second message of the first goroutine, whose last decoding
    fails (at the last byte of the buffer). *)
Example C57_example :
  match par_end with
  | Some (es, y) =>
      match y_views y with
      | [v; v'] => (length (v_msgs v), length (v_bufs v), length (v_msgs v'), length (v_bufs v')) = (3, 2, 0, 0)%nat /\
                   nth_error (v_msgs v) 1 = Some (0, 2)%nat /\ nth_error es 14 = Some (Some EWireType)
      | _ => False
      end
  | None => False
  end.
Proof. vm_compute. repeat split. Qed.
Example C57_alone_example : sees 1 par_acts (fst (pevents hist_sc par_acts (blank 2))) = [None; None; None; None; None; None].
Proof. vm_compute. reflexivity. Qed.
