(** C54: what UnmarshalVT does to memory is what it does to the tree in it. *)
From Coq Require Import ZArith List Bool Lia.
From Verif Require Import Heap HeapSpec HeapRead HeapDec PropsHeap PropsPool HeapOwnSpec HeapOwnFacts HeapSim HeapSimEq.
From Verif Require Import Base BaseFacts Schema Value Helpers Unmarshal Typing RecordSpec MsgSpec TargetFacts UmFacts Ex.
Import ListNotations.
Open Scope Z_scope.

(** * Statement *)
(** The situation of a call: the receiver [v] holds the tree [t], its parts share no
    memory ([owns], HeapOwnSpec.v), and the input [p] holds the bytes [d] and is not part of
    the receiver.  [P]: the objects of the receiver; [V]: byte arrays its strings alias
    (its byte slices too if [unsafe]: messages decoded with UnmarshalVTUnsafe). *)
Definition call_state (sc : schema) (pl unsafe : bool) (P V : nat -> Prop) (m : nat) (s : mem) (p : input) (d : list Z) (t : val) (v : hval) : Prop :=
  target sc m t /\ owns pl false unsafe V (heap s) P t v /\ input_is p d (heap s) /\ bytes_ok d = true /\ small d /\
  ~ P (in_arr p) /\ (unsafe = true -> V (in_arr p)) /\
  (forall b, P b -> (b < length (heap s))%nat) /\ (forall b, V b -> (b < length (heap s))%nat /\ ~ P b) /\ free s = [].
(** What is assumed of a schema and of the upstream decoders. *)
Definition decoders_ok (sc : schema) (pl unsafe : bool) (uunm uext : nat -> nat -> list Z -> list obj -> bool * list obj) : Prop :=
  wf_schema sc = true /\ up_dec_ok sc /\ (forall m, md_pool (md_of sc m) = true -> pl = true) /\
  up_owns sc pl false unsafe (fun md => md_foreign md = true) (up_dec (sc_up sc)) uunm /\
  up_owns sc pl false unsafe (fun md => md_ext md <> []) (up_ext (sc_up sc)) uext.

(** The generated code reads and writes struct members, slices with spare capacity, maps,
    wrappers and pointers one by one; for every capacity and every growth of [append] the
    outcome in memory is the tree UnmarshalVT computes ([Unmarshal.UnmarshalVT]): it fails
    in the same cases with the same error, changes only the receiver's objects, and the
    receiver again shares nothing.  (When it fails an empty list may stand for nil,
    [left_empty].)  UnmarshalVTUnsafe computes the same tree. *)
Theorem C54_memory : forall sc pl unsafe grow uunm uext P V m s p d t v,
  decoders_ok sc pl unsafe uunm uext -> call_state sc pl unsafe P V m s p d t v ->
  match UnmarshalVT sc m d t with
  | Ok t' => exists s', hUnmarshal sc unsafe grow uunm uext m p v s = Done tt s' /\ moves P (heap s) (heap s') /\
      owns pl false unsafe V (heap s') (grown P (heap s) (heap s')) t' v
  | Err e t' => exists s' t'', hUnmarshal sc unsafe grow uunm uext m p v s = Fail e s' /\ moves P (heap s) (heap s') /\
      left_empty t' t'' /\ owns pl false unsafe V (heap s') (grown P (heap s) (heap s')) t'' v
  | _ => False
  end.
Proof.
  intros sc pl unsafe grow uunm uext P V m s p d t v (W & U & PL & UU & UE) (T & O & I & B & Sm & NP & VI & BP & BV & F).
  set (pc := fun _ : nat => 0%nat). set (pt := fun _ : nat => VNil). set (pr := fun (_ : nat) (_ : val) => False).
  assert (forall s0 b, free s0 = [] -> pooled pc s0 b = false) as Np by (intros s0 b F0; unfold pooled; now rewrite F0).
  assert (base pl false unsafe V pc pt pr P s) as Ba.
  { split; [intros b Pb; split; auto|]. split; [intros b Vb; destruct (BV b Vb); auto|]. split; [intros b Hb; rewrite Np in Hb by assumption; discriminate|].
    split; [rewrite F; constructor|]. split; [rewrite F; intros ? ? []|auto]. }
  pose proof (UnmarshalVT_sim pl false unsafe V grow pc pt pr sc W U PL (fun _ => True) same_tree same_left (rel_same sc W) (fun _ _ => False_ind _) uunm uext UU UE P m p d s t t v Logic.I B Sm T eq_refl) as X.
  assert (ok pl false unsafe V pc pt pr P s p d) as K by (split; [exact Ba|]; split; [assumption|]; split; [assumption|]; split; auto). specialize (X K O).
  assert (forall s', goes pc P s s' -> moves P (heap s) (heap s') /\ forall b, gr pc P s s' b -> grown P (heap s) (heap s') b) as Mv.
  { intros s' (G1 & G2 & _). split; [split; [assumption|]|].
    - intros a La Na. apply G2; auto. unfold drew. now rewrite Np.
    - intros b [Pb|Hb]; [now left|right]. destruct (proj1 (newb_iff pc s s' b) Hb) as [Hn|Hn]; [exact Hn|]. clear Hb. rename Hn into Hb. unfold drew in Hb. now rewrite Np in Hb. }
  destruct (UnmarshalVT_total sc W U m d t B Sm T) as [(t' & E & _)|(e & t' & E & _)]; rewrite E in *; cbn [unit_of rbind sim] in X.
  - destruct X as (s' & a & E' & G & O' & Ea). unfold same_tree in Ea. subst a. destruct (Mv _ G) as [M1 M2]. exists s'. split; [assumption|]. split; [assumption|]. eapply own_mono; [exact M2|exact O'].
  - destruct X as (s' & t'' & E' & G & O' & Em). destruct (Mv _ G) as [M1 M2]. exists s', t''. split; [assumption|]. split; [assumption|]. split; [assumption|]. eapply own_mono; [exact M2|exact O'].
Qed.
Print Assumptions C54_memory.

(** In particular it does not panic. *)
Theorem C54_no_panic : forall sc pl unsafe grow uunm uext P V m s p d t v,
  decoders_ok sc pl unsafe uunm uext -> call_state sc pl unsafe P V m s p d t v ->
  (exists s', hUnmarshal sc unsafe grow uunm uext m p v s = Done tt s') \/ (exists e s', hUnmarshal sc unsafe grow uunm uext m p v s = Fail e s').
Proof.
  intros sc pl unsafe grow uunm uext P V m s p d t v D C. pose proof (C54_memory sc pl unsafe grow uunm uext P V m s p d t v D C) as X.
  destruct (UnmarshalVT sc m d t); try contradiction; [left|right]; destruct X as (s' & X); [exists s'; tauto|]. destruct X as (t'' & X). exists e, s'. tauto.
Qed.
Print Assumptions C54_no_panic.

(** How the receiver and the input are laid out in memory (addresses, capacities, what
    lies in spare capacity, where the bytes are) does not matter, nor whether strings and
    bytes are copied: two calls on equal trees and equal bytes end the same way, with
    equal trees if they succeed. *)
Theorem C54_layout : forall sc pl un1 un2 grow1 grow2 uunm uext P1 V1 P2 V2 m s1 s2 p1 p2 d t v1 v2,
  decoders_ok sc pl un1 uunm uext -> decoders_ok sc pl un2 uunm uext ->
  call_state sc pl un1 P1 V1 m s1 p1 d t v1 -> call_state sc pl un2 P2 V2 m s2 p2 d t v2 ->
  (exists s1' s2' t', hUnmarshal sc un1 grow1 uunm uext m p1 v1 s1 = Done tt s1' /\ hUnmarshal sc un2 grow2 uunm uext m p2 v2 s2 = Done tt s2' /\
     owns pl false un1 V1 (heap s1') (grown P1 (heap s1) (heap s1')) t' v1 /\ owns pl false un2 V2 (heap s2') (grown P2 (heap s2) (heap s2')) t' v2) \/
  (exists e s1' s2', hUnmarshal sc un1 grow1 uunm uext m p1 v1 s1 = Fail e s1' /\ hUnmarshal sc un2 grow2 uunm uext m p2 v2 s2 = Fail e s2').
Proof.
  intros sc pl un1 un2 grow1 grow2 uunm uext P1 V1 P2 V2 m s1 s2 p1 p2 d t v1 v2 D1 D2 C1 C2.
  pose proof (C54_memory sc pl un1 grow1 uunm uext P1 V1 m s1 p1 d t v1 D1 C1) as X1. pose proof (C54_memory sc pl un2 grow2 uunm uext P2 V2 m s2 p2 d t v2 D2 C2) as X2.
  destruct (UnmarshalVT sc m d t) as [t'|e t'| |]; try contradiction.
  - left. destruct X1 as (s1' & E1 & _ & O1), X2 as (s2' & E2 & _ & O2). exists s1', s2', t'. auto.
  - right. destruct X1 as (s1' & ? & E1 & _), X2 as (s2' & ? & E2 & _). exists e, s1', s2'. auto.
Qed.
Print Assumptions C54_layout.

(** * [owns] and [reads] *)
Lemma forall2_nth {A B} (R : A -> B -> Prop) d : forall l es, length es = length l -> (forall j x, nth_error l j = Some x -> R x (nth j es d)) -> Forall2 R l es.
Proof.
  induction l as [|x l IH]; intros [|e es] L H; try discriminate; constructor.
  - apply (H 0%nat x eq_refl).
  - apply IH; [now injection L|]. intros j y E. apply (H (S j) y E).
Qed.
Lemma nth_part {A} (l : list A) off len j d : (off + len <= length l)%nat -> (j < len)%nat -> nth j (firstn len (skipn off l)) d = nth (off + j) l d.
Proof.
  intros L H. rewrite <- (firstn_skipn off l) at 2. rewrite app_nth2 by (rewrite firstn_length; lia). rewrite firstn_length.
  replace (off + j - Nat.min off (length l))%nat with j by lia. rewrite <- (firstn_skipn len (skipn off l)) at 2.
  rewrite app_nth1 by (rewrite firstn_length, skipn_length; lia). reflexivity.
Qed.
(** A variable that owns a tree holds it in the sense of C35 and C39. *)
Lemma own_reads pl un V h t : forall P v, owns pl false un V h P t v -> reads (fun b => P b \/ (un = true /\ V b)) V h t v.
Proof.
  assert (forall (P P' : nat -> Prop) t v, (forall a, P a -> P' a) -> reads P V h t v -> reads P' V h t v) as Mono.
  { intros P P' t0 v HP. apply reads_mono; auto. }
  induction t using val_tree_ind; intros P v O; auto.
  - cbn [owns reads] in *. destruct O as [O|[Un O]]; destruct v; try contradiction.
    + destruct O as (Pa & _ & b & N & S & _). split; [now left|]. exists b. auto.
    + destruct O as (Va & O). split; [now right|assumption].
  - cbn [owns reads] in *. destruct O as (a & y & E & Pa & N & O). exists a, y. repeat (split; auto). eapply Mono; [|apply IHt; exact O]. now intros b [[]|]; [left|right].
  - apply own_list in O as (a & off & cap & es & c & E & Pa & N & L & C & F). apply reads_list.
    exists a, off, (length l), cap, es, (firstn (length l) (skipn off es)). split; [assumption|]. split; [now left|]. split; [assumption|]. split; [split; [lia|reflexivity]|].
    apply (forall2_nth _ HNil); [rewrite firstn_length, skipn_length; lia|]. intros j x Ex. pose proof (nth_error_In _ _ Ex) as Hx.
    rewrite nth_part by (try lia; apply nth_error_Some; congruence). eapply Mono; [|apply H; [exact Hx|apply F; exact Ex]]. now intros b [(? & _)|?]; [left|right].
  - apply own_map in O as (a & es & c & E & Pa & N & L & F). apply reads_map. exists a, es. split; [assumption|]. split; [now left|]. split; [assumption|].
    apply (forall2_nth _ (HNil, HNil)); [assumption|]. intros j x Ex. pose proof (nth_error_In _ _ Ex) as Hx.
    assert (j < length es)%nat as Lj by (rewrite L; apply nth_error_Some; congruence).
    destruct (F j x _ Ex (nth_error_nth' es (HNil, HNil) Lj)) as [K O]. destruct (H x Hx) as [_ H2]. split.
    + destruct (fst x); cbn [owns_key] in K; try contradiction; exact K.
    + eapply Mono; [|apply H2; exact O]. now intros b [(? & _)|?]; [left|right].
  - cbn [owns reads] in *. destruct O as (a & y & E & Pa & N & O). exists a, y. repeat (split; auto). eapply Mono; [|apply IHt; exact O]. now intros b [[]|]; [left|right].
  - apply own_msg in O as (Hh & a & hs & w & c & E & Pa & N & Uk & L & _ & F). apply reads_msg. split; [now apply Hh|]. exists a, hs, w. split; [assumption|]. split; [now left|]. split; [assumption|].
    split.
    + destruct Uk as [Uk|Uk]; [now left|right]. destruct w; try contradiction. destruct Uk as ((Pb & _) & _ & b & Nb & S & _). split; [now left|]. exists b. auto.
    + apply (forall2_nth _ HNil); [assumption|]. intros j x Ex. assert (j < length l)%nat as Lj by (apply nth_error_Some; congruence). destruct (F j Lj) as (k & O & _).
      unfold slot in O. rewrite (nth_error_nth _ _ _ Ex) in O. eapply Mono; [|apply H; [eapply nth_error_In; exact Ex|exact O]]. now intros b [((? & _) & _)|?]; [left|right].
Qed.

(** * Examples *)
(** Schema.  Node: bytes b = 1; repeated Leaf r = 2; Leaf l = 3; Far f = 4;
    map<int32, string> q = 5.  Leaf: int32 i = 1; repeated int32 r = 2; extensions 100 to
    199.  Far, without vtproto helpers: int32 n = 1, to which its decoder assigns the
    length of the input. *)
Definition sim_up : upstream := mkUp (up_enc ex_up) (up_init ex_up) (up_size ex_up)
  (fun m bs => Some (VMsg [VInt (zlen bs mod 1000)] [] [])) (up_eq ex_up) (up_clone ex_up) (fun m bs => None).
Definition sim_sc : schema := mkS
  [ mkM [ mkF 1 0 (TField LImplicit KBytes); mkF 2 1 (TField (LRepeated false) (KMessage 1)); mkF 3 2 (TField LOptional (KMessage 1));
          mkF 4 3 (TField LOptional (KMessage 2)); mkF 5 4 (TMap KInt32 KString) ] 5 true [] false false;
    mkM [ mkF 1 0 (TField LImplicit KInt32); mkF 2 1 (TField (LRepeated true) KInt32) ] 2 true [(100, 200)] false false;
    mkM [ mkF 1 0 (TField LImplicit KInt32) ] 1 true [] false true ] sim_up.
Definition sim_uunm (m a : nat) (bs : list Z) (h : list obj) : bool * list obj :=
  match nth_error h a with
  | Some (OMsg _ _) => (true, list_set h a (OMsg [HInt (zlen bs mod 1000)] HNil))
  | _ => (false, h)
  end.
Definition sim_uext (m a : nat) (bs : list Z) (h : list obj) : bool * list obj := (false, h).
Lemma sim_decoders un : decoders_ok sim_sc false un sim_uunm sim_uext.
Proof.
  split; [reflexivity|]. split; [|split; [|split]].
  - split; [|discriminate]. intros m bs v F E. destruct m as [|[|[|[|m]]]]; try discriminate F. cbn in E. injection E as <-. split.
    + apply (check_ok sim_sc 2). pose proof (Z.mod_pos_bound (zlen bs) 1000 eq_refl). cbn -[Z.modulo zlen]. unfold in_range. cbn -[Z.modulo zlen].
      replace (_ <=? zlen bs mod 1000) with true by lia. replace (zlen bs mod 1000 <? _) with true by lia. reflexivity.
    + constructor; [intros f l k m' [<-|[]] T [->| ->]; discriminate|intros f k m' x [<-|[]]; discriminate|intros f q k m' x [<-|[]]; discriminate].
  - intros [|[|[|[|m]]]]; discriminate.
  - intros P V m a bs h t F BP BV T O. destruct T as [m s u hd _ _ _]. apply own_msg in O as (_ & a' & hs & w & c & E & Pa & N & _). injection E as <-.
    unfold sim_uunm. rewrite N. eexists. eexists. split; [reflexivity|]. pose proof (BP a Pa) as L. split; [split; [rewrite list_set_length; lia|]|].
    + intros b Lb NP. rewrite nth_error_set_neq; auto. intros <-. contradiction.
    + cbn -[zlen Z.modulo]. split; [reflexivity|]. split; [reflexivity|]. exists a, [HInt (zlen bs mod 1000)], HNil, (fun _ => 0%nat), (fun _ => 0%nat). split; [reflexivity|]. split; [now left|].
      split; [now apply nth_error_set_eq|]. split; [now left|]. split; [reflexivity|]. split; [lia|]. split; [discriminate|]. repeat split.
  - intros P V m a bs h t F BP BV T O. exists false, h. split; [reflexivity|]. split; [split; auto|]. cbn. split; [reflexivity|]. eapply own_mono; [|exact O]. intros b Pb. now left.
Qed.
(** The receiver, at 0: b is two of the four bytes at 3, r is one of two elements at 5, the
    element is at 6; 2 and 4 belong to someone else.  The input is at 1. *)
Definition sim_in : list Z :=
  [10; 3; 1; 2; 3; 18; 6; 8; 9; 18; 2; 1; 2; 26; 3; 18; 1; 3; 34; 2; 5; 6; 42; 5; 8; 1; 18; 1; 97].
Definition sim_mem (d : list Z) : mem := mkMem
  [ OMsg [HSlice 3 0 2 4; HSlice 5 0 1 2; HNil; HNil; HNil] HNil; OBytes d; OBytes [0]; OBytes [7; 8; 9; 10]; OBytes [];
    OArr [HPtr 6; HNil]; OMsg [HInt 5; HNil] HNil ] [] [].
Definition sim_part (b : nat) : Prop := In b [0; 3; 5; 6]%nat.
Definition sim_p (d : list Z) : input := mkIn 1 0 (length d) (length d).
Definition sim_t : val := VMsg [VBytes [7; 8]; VList [VMsg [VInt 5; VNil] [] []]; VNil; VNil; VNil] [] [].
Definition sim_view (b : nat) : Prop := b = 1%nat.
Lemma sim_call un d : bytes_ok d = true -> (length d < 100)%nat -> call_state sim_sc false un sim_part sim_view 0 (sim_mem d) (sim_p d) d sim_t (HPtr 0).
Proof.
  intros B L. split; [|split; [|split; [|split; [exact B|split; [|split; [|split; [reflexivity|split; [|split]]]]]]]].
  - split; [now apply (check_ok sim_sc 3)|]. constructor.
    + intros f l k m' Hf T [->| ->]; repeat (destruct Hf as [<-|Hf]; [try discriminate; now left|]); destruct Hf.
    + intros f k m' x Hf T; repeat (destruct Hf as [<-|Hf]; [discriminate|]); destruct Hf.
    + intros f q k m' x Hf T; repeat (destruct Hf as [<-|Hf]; [try discriminate; intros _ []|]); destruct Hf.
  - cbn -[Nat.add nth]. split; [reflexivity|]. exists 0%nat, [HSlice 3 0 2 4; HSlice 5 0 1 2; HNil; HNil; HNil], HNil, (fun b => if Nat.eqb b 3 then 1%nat else 2%nat), (fun _ => 0%nat).
    split; [reflexivity|]. split; [now left|]. split; [reflexivity|]. split; [now left|]. split; [reflexivity|]. split; [lia|]. split; [discriminate|]. split; [|exact I]. cbn -[Nat.add].
    split; [|split; [|repeat split]].
    + left. split; [|split; [lia|]]; [split; [split; [right; now left|split; [discriminate|reflexivity]]|split; [discriminate|reflexivity]]|]. exists [7; 8; 9; 10]. split; [reflexivity|]. split; [split; [cbn; lia|reflexivity]|cbn; lia].
    + exists 5%nat, 0%nat, 2%nat, [HPtr 6; HNil], (fun _ => 0%nat). split; [reflexivity|]. split; [split; [split; [do 2 right; now left|split; [discriminate|reflexivity]]|split; [discriminate|reflexivity]]|]. split; [reflexivity|]. split; [lia|]. split; [cbn; lia|].
      split; [|exact I]. split; [reflexivity|]. exists 6%nat, [HInt 5; HNil], HNil, (fun _ => 0%nat), (fun _ => 0%nat). split; [reflexivity|].
      split; [|split; [reflexivity|split; [now left|split; [reflexivity|split; [cbn; lia|split; [discriminate|repeat split]]]]]].
      split; [split; [split; [do 3 right; now left|split; [discriminate|reflexivity]]|split; [discriminate|reflexivity]]|split; [discriminate|reflexivity]].
  - exists d. split; [reflexivity|]. split; [cbn; lia|]. cbn. symmetry. apply firstn_all.
  - unfold small, zlen. lia.
  - intros [E|[E|[E|[E|[]]]]]; discriminate.
  - intros b [<-|[<-|[<-|[<-|[]]]]]; cbn; lia.
  - intros b ->. split; [cbn; lia|]. intros [E|[E|[E|[E|[]]]]]; discriminate.
  - reflexivity.
Qed.
Definition sim_grow (n : nat) : nat := (2 * n)%nat.
Definition sim_run (un : bool) (d : list Z) : out unit := hUnmarshal sim_sc un sim_grow sim_uunm sim_uext 0 (sim_p d) (HPtr 0) (sim_mem d).
Definition end_of {A} (o : out A) : mem := match o with Done _ s | Fail _ s | Crash s => s | Stuck => sim_mem [] end.
(** The hypotheses are met; what the call does, by computation. *)
Example C54_example :
  decoders_ok sim_sc false false sim_uunm sim_uext /\
  call_state sim_sc false false sim_part sim_view 0 (sim_mem sim_in) (sim_p sim_in) sim_in sim_t (HPtr 0) /\
  sim_run false sim_in = Done tt (end_of (sim_run false sim_in)) /\
  UnmarshalVT sim_sc 0 sim_in sim_t = Ok (VMsg
    [ VBytes [1; 2; 3]; VList [VMsg [VInt 5; VNil] [] []; VMsg [VInt 9; VList [VInt 1; VInt 2]] [] []]; VMsg [VInt 0; VList [VInt 3]] [] [];
      VMsg [VInt 2] [] []; VMap [(VInt 1, VStr [97])] ] [] []) /\
  firstn 7 (heap (end_of (sim_run false sim_in))) =
    [ OMsg [HSlice 3 0 3 4; HSlice 5 0 2 2; HPtr 9; HPtr 11; HMap 12] HNil; OBytes sim_in; OBytes [0]; OBytes [1; 2; 3; 10]; OBytes [];
      OArr [HPtr 6; HPtr 7]; OMsg [HInt 5; HNil] HNil ].
Proof.
  split; [apply sim_decoders|]. split; [apply sim_call; [reflexivity|cbn; lia]|]. split; [vm_compute; reflexivity|]. split; vm_compute; reflexivity.
Qed.
(** UnmarshalVTUnsafe: the new bytes and the map's string alias the input (29 bytes at 1). *)
Example C54_example_unsafe :
  decoders_ok sim_sc false true sim_uunm sim_uext /\
  call_state sim_sc false true sim_part sim_view 0 (sim_mem sim_in) (sim_p sim_in) sim_in sim_t (HPtr 0) /\
  sim_run true sim_in = Done tt (end_of (sim_run true sim_in)) /\
  nth_error (heap (end_of (sim_run true sim_in))) 0 = Some (OMsg [HSlice 1 2 3 27; HSlice 5 0 2 2; HPtr 9; HPtr 11; HMap 12] HNil) /\
  nth_error (heap (end_of (sim_run true sim_in))) 12 = Some (OMap [(HInt 1, HView 1 28 1)]).
Proof.
  split; [apply sim_decoders|]. split; [apply sim_call; [reflexivity|cbn; lia]|]. split; [vm_compute; reflexivity|]. split; vm_compute; reflexivity.
Qed.
(** A call that fails (a number of eleven bytes in a packed list) and leaves an empty list
    where the tree has nil. *)
Definition sim_bad : list Z := [26; 13; 18; 11; 128; 128; 128; 128; 128; 128; 128; 128; 128; 128; 1].
Example C54_example_fail : exists e,
  call_state sim_sc false false sim_part sim_view 0 (sim_mem sim_bad) (sim_p sim_bad) sim_bad sim_t (HPtr 0) /\
  sim_run false sim_bad = Fail e (end_of (sim_run false sim_bad)) /\
  UnmarshalVT sim_sc 0 sim_bad sim_t = Err e (VMsg [VBytes [7; 8]; VList [VMsg [VInt 5; VNil] [] []]; VMsg [VInt 0; VNil] [] []; VNil; VNil] [] []) /\
  reads (fun _ => True) (fun _ => False) (heap (end_of (sim_run false sim_bad)))
    (VMsg [VBytes [7; 8]; VList [VMsg [VInt 5; VNil] [] []]; VMsg [VInt 0; VList []] [] []; VNil; VNil] [] []) (HPtr 0).
Proof.
  eexists. split; [apply sim_call; [reflexivity|cbn; lia]|]. split; [vm_compute; reflexivity|]. split; [vm_compute; reflexivity|].
  let h := eval vm_compute in (heap (end_of (sim_run false sim_bad))) in change (heap (end_of (sim_run false sim_bad))) with h. cbn. read_example.
Qed.

(** * Receivers that share *)
(** Without [owns] it is false: in this receiver the first element of r and l are one
    object, so decoding into l changes r. *)
Definition shared_mem (d : list Z) : mem := mkMem
  [ OMsg [HNil; HSlice 2 0 1 1; HPtr 3; HNil; HNil] HNil; OBytes d; OArr [HPtr 3]; OMsg [HInt 5; HNil] HNil ] [] [].
Definition shared_t : val := VMsg [VNil; VList [VMsg [VInt 5; VNil] [] []]; VMsg [VInt 5; VNil] [] []; VNil; VNil] [] [].
Definition shared_in : list Z := [26; 2; 8; 9].
Definition shared_run : out unit := hUnmarshal sim_sc false sim_grow sim_uunm sim_uext 0 (sim_p shared_in) (HPtr 0) (shared_mem shared_in).
Theorem C54_shared_refuted : exists sc pl grow uunm uext m s p d t v t' s',
  decoders_ok sc pl false uunm uext /\ target sc m t /\ reads (fun a => a <> in_arr p) (fun _ => False) (heap s) t v /\ input_is p d (heap s) /\ free s = [] /\
  UnmarshalVT sc m d t = Ok t' /\ hUnmarshal sc false grow uunm uext m p v s = Done tt s' /\ ~ reads (fun _ => True) (fun _ => True) (heap s') t' v.
Proof.
  exists sim_sc, false, sim_grow, sim_uunm, sim_uext, 0%nat, (shared_mem shared_in), (sim_p shared_in), shared_in, shared_t, (HPtr 0),
    (VMsg [VNil; VList [VMsg [VInt 5; VNil] [] []]; VMsg [VInt 9; VNil] [] []; VNil; VNil] [] []), (end_of shared_run).
  split; [apply sim_decoders|]. split; [|split; [|split; [|split; [reflexivity|split; [vm_compute; reflexivity|split; [vm_compute; reflexivity|]]]]]].
  - split; [now apply (check_ok sim_sc 3)|]. constructor.
    + intros f l k m' Hf T [->| ->]; repeat (destruct Hf as [<-|Hf]; [try discriminate; try (now left)|]); try destruct Hf.
      intros E. injection T as <-. injection E as <-. right. constructor.
      * intros f l k m' Hf T [->| ->]; repeat (destruct Hf as [<-|Hf]; [discriminate|]); destruct Hf.
      * intros f k m' x Hf T; repeat (destruct Hf as [<-|Hf]; [discriminate|]); destruct Hf.
      * intros f q k m' x Hf T; repeat (destruct Hf as [<-|Hf]; [try discriminate; intros _ []|]); destruct Hf.
    + intros f k m' x Hf T; repeat (destruct Hf as [<-|Hf]; [discriminate|]); destruct Hf.
    + intros f q k m' x Hf T; repeat (destruct Hf as [<-|Hf]; [try discriminate; intros _ []|]); destruct Hf.
  - cbn. repeat (read_example; try discriminate).
  - exists shared_in. split; [reflexivity|]. split; [cbn; lia|reflexivity].
  - let h := eval vm_compute in (heap (end_of shared_run)) in change (heap (end_of shared_run)) with h. intros R.
    apply reads_msg in R as (_ & a & hs & w & E & _ & N & _ & F). injection E as <-. cbn in N. injection N as <- <-.
    inversion F as [|? ? ? ? _ F1]; subst. inversion F1 as [|? ? ? ? R _]; subst. apply reads_list in R as (a & off & len & cap & es & es' & E & _ & N & [_ S] & F2).
    injection E as <- <- <- <-. cbn in N. injection N as <-. cbn in S. subst es'. inversion F2 as [|? ? ? ? R _]; subst.
    apply reads_msg in R as (_ & a & hs & w & E & _ & N & _ & F3). injection E as <-. cbn in N. injection N as <- <-.
    inversion F3 as [|? ? ? ? R _]; subst. cbn in R. discriminate.
Qed.
Print Assumptions C54_shared_refuted.
