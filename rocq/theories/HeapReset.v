(** ResetVT and ReturnToVTPool on memory do what they do on trees. *)
From Coq Require Import ZArith List Bool Lia.
From Verif Require Import PoolSpec.
From Verif Require Import Heap HeapSpec HeapRead HeapDec HeapOwnSpec HeapOwnFacts HeapSim.
From Verif Require Import Base BaseFacts Schema Value Helpers Unmarshal Clone Pool WireSpec Typing RecordSpec MsgSpec DecodeSpec ContentSpec
  TargetFacts UmFacts SameFacts EqualRel RunRel RunFacts PoolFacts PoolRun.
Import ListNotations.
Open Scope Z_scope.

Section Reset.
Variable sc : schema.
Hypothesis W : wf_schema sc = true.
Variables pl un : bool.
Variable V : nat -> Prop.
Notation own := (owns pl true un V).
Notation oslot := (own_slot pl true un V).
Notation rv := (rv sc text (keeps sc)). Notation rs := (rs sc text (keeps sc)). Notation rf := (rf sc text (keeps sc)). Notation rm := (rm sc text (keeps sc)).

(** Only objects in [P] change; the objects [L] are put into the pools. *)
Definition into (P : nat -> Prop) (s : mem) (L : list (nat * nat)) (s' : mem) : Prop :=
  length (heap s') = length (heap s) /\ (forall b, ~ P b -> nth_error (heap s') b = nth_error (heap s) b) /\ free s' = L ++ free s /\ picks s' = picks s.
(** They are distinct and hold the trees [q]; [c] tells which objects they are made of. *)
Definition gave (h : list obj) (P : nat -> Prop) (c : nat -> nat) (q : puts) (L : list (nat * nat)) : Prop :=
  NoDup (map snd L) /\ Forall2 (fun e l => fst e = fst l /\ own h (fun b => P b /\ c b = S (snd l)) (snd e) (HPtr (snd l))) q (rev L).

Lemma into_refl P s : into P s [] s. Proof. repeat split; auto. Qed.
Lemma into_sub (P P' : nat -> Prop) s L s' : (forall b, P b -> P' b) -> into P s L s' -> into P' s L s'.
Proof. intros H (A & B & C). split; [assumption|]. split; [|assumption]. intros b Nb. apply B. auto. Qed.
Lemma into_trans (P : nat -> Prop) s L s1 L1 s2 : into P s L s1 -> into P s1 L1 s2 -> into P s (L1 ++ L) s2.
Proof.
  intros (A & B & C & D) (A1 & B1 & C1 & D1). split; [congruence|]. split; [|split; [|congruence]].
  - intros b Nb. rewrite B1, B; auto.
  - now rewrite C1, C, app_assoc.
Qed.
Lemma into_keep (P Q Q' : nat -> Prop) s L s' t v : into P s L s' -> (forall b, P b -> ~ V b) -> (forall b, Q b -> ~ P b /\ Q' b) -> own (heap s) Q t v -> own (heap s') Q' t v.
Proof.
  intros (_ & B & _) NV D O. eapply own_keep; [| |exact O].
  - intros b Vb. apply B. intros Pb. exact (NV b Pb Vb).
  - intros b Qb. destruct (D b Qb). auto.
Qed.
Lemma into_keep_slot (P Q Q' : nat -> Prop) s L s' t hl v : into P s L s' -> (forall b, P b -> ~ V b) -> (forall b, Q b -> ~ P b /\ Q' b) -> oslot (heap s) Q t hl v -> oslot (heap s') Q' t hl v.
Proof.
  intros (_ & B & _) NV D O. eapply own_slot_keep; [| |exact O].
  - intros b Vb. apply B. intros Pb. exact (NV b Pb Vb).
  - intros b Qb. destruct (D b Qb). auto.
Qed.
Lemma gave_nil h P c : gave h P c [] []. Proof. split; constructor. Qed.
Lemma Forall2_and {A B} (R1 R2 : A -> B -> Prop) l l' : Forall2 R1 l l' -> (forall x y, In x l -> In y l' -> R1 x y -> R2 x y) -> Forall2 R2 l l'.
Proof. induction 1 as [|x y l l' H F IH]; intros K; constructor; [apply K; cbn; auto|]. apply IH. intros. apply K; cbn; auto. Qed.
(** What was put stays as it is when other objects change, and may be colored differently. *)
Lemma gave_keep (P P1 P' : nat -> Prop) s L0 s' c c' q L : into P s L0 s' -> (forall b, P b -> ~ V b) ->
  (forall b i, P1 b -> c b = S i -> In i (map snd L) -> ~ P b /\ P' b /\ c' b = S i) -> gave (heap s) P1 c q L -> gave (heap s') P' c' q L.
Proof.
  intros I NV D [ND G]. split; [exact ND|]. eapply Forall2_and; [exact G|]. intros [m t] [m' a] _ Hin [E O]. split; [exact E|]. cbn [snd] in *.
  eapply into_keep; [exact I|exact NV| |exact O]. cbv beta. intros b [Pb Cb]. destruct (D b a Pb Cb) as (X & Y & Z0); auto.
  apply in_map_iff. exists (m', a). split; [reflexivity|]. now apply in_rev.
Qed.
Lemma nodup_app {A} (l1 l2 : list A) : NoDup l1 -> NoDup l2 -> (forall a, In a l1 -> In a l2 -> False) -> NoDup (l1 ++ l2).
Proof. induction 1 as [|x l1 Nx H IH]; intros H2 D; cbn; [exact H2|]. constructor; [|apply IH; auto; intros a Ha; apply D; now right]. rewrite in_app_iff. intros [|]; [auto|]. apply (D x); auto. now left. Qed.
Lemma gave_app h P c q1 L1 q2 L2 : gave h P c q1 L1 -> gave h P c q2 L2 -> (forall a, In a (map snd L1) -> In a (map snd L2) -> False) -> gave h P c (q1 ++ q2) (L2 ++ L1).
Proof. intros [NA A] [NB B] D. split; [rewrite map_app; apply nodup_app; auto; intros a H1 H2; eauto|]. rewrite rev_app_distr. apply Forall2_app; assumption. Qed.
Lemma gave_mono h (P P' : nat -> Prop) c c' q L : (forall b i, P b -> c b = S i -> P' b /\ c' b = S i) -> gave h P c q L -> gave h P' c' q L.
Proof.
  intros H [ND G]. split; [exact ND|]. eapply Forall2_and; [exact G|]. intros [m t] [m' a] _ _ [E O]. split; [exact E|]. eapply own_mono; [|exact O]. cbv beta. intros b [Pb Cb]. now apply H.
Qed.
Lemma gave_in h P c q L a : gave h P c q L -> In a (map snd L) -> P a /\ c a = S a.
Proof.
  intros [_ G] H. apply in_map_iff in H as ([m b] & <- & Hin). apply in_rev in Hin. cbn [snd].
  induction G as [|[m1 t] [m2 b2] q' L' [E O] G IH]; [destruct Hin|]. destruct Hin as [Hin|Hin]; [|auto]. injection Hin as -> ->. cbn [snd fst] in *.
  destruct t; cbn [owns] in O; try discriminate O; try contradiction.
  - destruct O as [O|[_ O]]; contradiction O.
  - destruct O as (? & ? & [= <-] & O & _). exact O.
  - destruct O as (? & ? & ? & ? & ? & E' & _). discriminate E'.
  - destruct O as (? & ? & ? & E' & _). discriminate E'.
  - destruct O as (? & ? & [= <-] & O & _). exact O.
  - destruct O as (_ & ? & ? & ? & ? & ? & [= <-] & O & _). exact O.
Qed.

(** The ResetVT methods one level down. *)
Variable rec : nat -> val -> res unit (val * puts).
Variable hrec : nat -> hval -> D unit.
Definition sim_reset (P : nat -> Prop) (s : mem) (x : D unit) (r : res unit (val * puts)) (v : hval) : Prop :=
  match r with
  | Ok (t', q) => exists s' L c, x s = Done tt s' /\ into P s L s' /\ own (heap s') (fun b => P b /\ c b = 0%nat) t' v /\ gave (heap s') P c q L /\ exists ss u h, t' = VMsg ss u h
  | Panic => exists s', x s = Crash s'
  | _ => True
  end.
Hypothesis RC : forall m t b v (P : nat -> Prop) s, md_pool (md_of sc m) = true -> rm m t b -> (forall a, P a -> ~ V a) -> own (heap s) P t v -> sim_reset P s (hrec m v) (rec m t) v.
Hypothesis PL : pools_local sc.
Hypothesis HN : forall m s, hrec m HNil s = Done tt s.

Lemma own_ptr h P ss u hh v : own h P (VMsg ss u hh) v -> exists a hs w, v = HPtr a /\ P a /\ nth_error h a = Some (OMsg hs w).
Proof. intros O. apply own_msg in O as (_ & a & hs & w & c & -> & Pa & N & _). eauto 6. Qed.
Lemma set_nth_error {A} (l : list A) i x j : (i < length l)%nat -> nth_error (list_set l i x) j = if Nat.eqb i j then Some x else nth_error l j.
Proof. intros L. destruct (Nat.eqb_spec i j) as [<-|N]; [now apply nth_error_set_eq|now apply nth_error_set_neq]. Qed.

(** ReturnToVTPool of a sub-message. *)
Lemma return_sim m t b v (P : nat -> Prop) s : md_pool (md_of sc m) = true -> rs m t b -> (forall a, P a -> ~ V a) -> own (heap s) P t v ->
  match return_sub rec m t with
  | Ok q => exists s' L c, hreturn hrec m v s = Done tt s' /\ into P s L s' /\ gave (heap s') P c q L
  | Panic => exists s', hreturn hrec m v s = Crash s'
  | _ => True
  end.
Proof.
  intros Pm R NV O. pose proof (PL m Pm) as F. inversion R as [|? ? ? F'|? ? ? F' M]; subst; [|congruence|].
  { cbn [owns] in O. subst v. cbn. exists s, [], (fun _ => 0%nat). split; [reflexivity|]. split; [apply into_refl|apply gave_nil]. }
  destruct (rm_vmsg sc text (keeps sc) m t b M) as (ss & u & hh & ss' & hh' & -> & ->). cbn [return_sub].
  pose proof (RC m _ _ v P s Pm M NV O) as X. destruct (own_ptr _ _ _ _ _ _ O) as (a & hs & w & -> & Pa & N). cbn [hreturn].
  destruct (rec m (VMsg ss u hh)) as [[t' q]| | |]; cbn [rbind fst snd]; auto.
  - destruct X as (s1 & L & c & E & I & O' & G & ss1 & u1 & h1 & ->). rewrite (dbind_done _ _ _ _ _ E).
    destruct (own_ptr _ _ _ _ _ _ O') as (a' & hs' & w' & [= <-] & [_ Ca] & N').
    exists (mkMem (heap s1) ((m, a) :: free s1) (picks s1)), ((m, a) :: L), (fun b => if Nat.eqb (c b) 0 then S a else c b).
    split; [|split].
    + unfold acc, load, dbind. now rewrite N'.
    + destruct I as (I1 & I2 & I3 & I4). repeat split; auto. cbn [free]. now rewrite I3.
    + change ((m, a) :: L) with ([(m, a)] ++ L). apply gave_app; cbn [heap].
      * eapply gave_mono; [|exact G]. cbv beta. intros x i Px Cx. split; [exact Px|]. now rewrite Cx.
      * split; [cbn; constructor; [intros []|constructor]|]. constructor; [|constructor]. split; [reflexivity|]. cbn [snd]. eapply own_mono; [|exact O']. cbv beta. intros x [Px Cx]. split; [exact Px|]. now rewrite Cx.
      * intros x Hx [<-|[]]. cbn [snd] in Hx. destruct (gave_in _ _ _ _ _ _ G Hx). congruence.
  - destruct X as (s1 & E). exists s1. unfold dbind. now rewrite E.
Qed.

(** The elements of a list of messages.  [Rg j]: the objects of the element at [j]; [c0]
    tells them apart. *)
Lemma reset_elems_sim m l : forall j hl s (Rg : nat -> nat -> Prop) (c0 : nat -> nat),
  (forall i b, Rg i b -> c0 b = i /\ ~ V b) -> length hl = length l ->
  (forall i x y, nth_error l i = Some x -> nth_error hl i = Some y -> own (heap s) (Rg (j + i)%nat) x y) ->
  (forall x, In x l -> exists b, rs m x b) ->
  let T := fun b => exists i, (j <= i)%nat /\ Rg i b in
  match reset_elems sc rec m l with
  | Ok (l', q) => exists s' L c, hreset_elems sc hrec m hl s = Done tt s' /\ into T s L s' /\ length l' = length l /\
      (forall i x y, nth_error l' i = Some x -> nth_error hl i = Some y -> own (heap s') (fun b => Rg (j + i)%nat b /\ c b = 0%nat) x y) /\ gave (heap s') T c q L
  | Panic => exists s', hreset_elems sc hrec m hl s = Crash s'
  | _ => True
  end.
Proof.
  induction l as [|x l IH]; intros j hl s Rg c0 D Ll O R T; cbn [reset_elems].
  { destruct hl; [|discriminate]. cbn. exists s, [], (fun _ => 0%nat). split; [reflexivity|]. split; [apply into_refl|]. split; [reflexivity|]. split; [intros [|i]; discriminate|apply gave_nil]. }
  destruct hl as [|y hl]; [discriminate|]. cbn [hreset_elems]. cbn [length] in Ll.
  pose proof (O 0%nat x y eq_refl eq_refl) as Ox. rewrite Nat.add_0_r in Ox. destruct (R x (or_introl eq_refl)) as [b Rb].
  assert (forall a, Rg j a -> ~ V a) as NV by (intros a Ra; apply (D j a Ra)).
  set (r1 := if md_pool (md_of sc m) then match x with VMsg _ _ _ => rec m x | _ => Ok (x, []) end else match x with VMsg _ _ _ => Ok (new_msg (md_of sc m), []) | _ => Panic end).
  assert (match r1 with
    | Ok (t', q) => exists s' L c, (if md_pool (md_of sc m) then hrec m y else hReset sc m y) s = Done tt s' /\ into (Rg j) s L s' /\ own (heap s') (fun b => Rg j b /\ c b = 0%nat) t' y /\ gave (heap s') (Rg j) c q L
    | Panic => exists s', (if md_pool (md_of sc m) then hrec m y else hReset sc m y) s = Crash s'
    | _ => True end) as X.
  { unfold r1. destruct (md_pool (md_of sc m)) eqn:Pm.
    - pose proof (PL m Pm) as F. inversion Rb as [|? ? ? F'|? ? ? F' M]; subst; [|congruence|].
      + cbn [owns] in Ox. subst y. pose proof HN as HN'. specialize (HN' m s). exists s, [], (fun _ => 0%nat). split; [exact HN'|]. split; [apply into_refl|]. split; [reflexivity|apply gave_nil].
      + pose proof (RC m x b y (Rg j) s Pm M NV Ox) as X. destruct (rm_vmsg sc text (keeps sc) m x b M) as (ss & u & hh & ss' & hh' & -> & ->).
        destruct (rec m (VMsg ss u hh)) as [[t' q]| | |]; auto. destruct X as (s' & L & c & E & I & O' & G & _). eauto 8.
    - assert (x = VNil \/ exists ss u h, x = VMsg ss u h) as [->|(ss & u & h & ->)].
      { inversion Rb as [|? ? ? F Ta|? ? ? F M]; subst; [now left| |]; right; [inversion Ta|inversion M]; subst; eauto. }
      + cbn [owns] in Ox. subst y. exists s. reflexivity.
      + destruct (own_ptr _ _ _ _ _ _ Ox) as (a & hs & w & -> & Pa & N). assert (a < length (heap s))%nat as La by (apply nth_error_Some; congruence).
        eexists. exists [], (fun _ => 0%nat). split; [unfold hReset, acc, bind, load; rewrite N; unfold Heap.store; rewrite (proj2 (Nat.ltb_lt _ _) La); reflexivity|]. split; [|split; [|apply gave_nil]].
        * split; [cbn [heap]; apply list_set_length|]. split; [|split; reflexivity]. intros b' Nb. cbn [heap]. rewrite set_nth_error by exact La. destruct (Nat.eqb_spec a b') as [<-|]; [contradiction|reflexivity].
        * cbn [heap]. apply own_obj; [auto|]. now apply nth_error_set_eq. }
  destruct r1 as [[x' q1]| | |]; cbn [rbind]; auto.
  2:{ destruct X as [s' E]. exists s'. unfold dbind. now rewrite E. }
  destruct X as (s1 & L1 & c1 & E1 & I1 & O1 & G1). rewrite (dbind_done _ _ _ _ _ E1).
  assert (forall i z w, nth_error l i = Some z -> nth_error hl i = Some w -> own (heap s1) (Rg (S j + i)%nat) z w) as O2.
  { intros i z w Ez Ew. eapply into_keep; [exact I1|exact NV| |replace (S j + i)%nat with (j + S i)%nat by lia; apply (O (S i) z w); assumption].
    cbv beta. intros b' Rb'. split; [|now replace (S j + i)%nat with (j + S i)%nat by lia]. intros Rj. destruct (D _ _ Rb') as [D1 _]. destruct (D _ _ Rj) as [D2 _]. lia. }
  specialize (IH (S j) hl s1 Rg c0 D ltac:(lia) O2 (fun z Hz => R z (or_intror Hz))). cbv zeta in IH.
  destruct (reset_elems sc rec m l) as [[l' q2]| | |]; cbn [rbind fst snd]; auto.
  destruct IH as (s' & L2 & c2 & E2 & I2 & Le & O3 & G2). exists s', (L2 ++ L1), (fun b => if Nat.eqb (c0 b) j then c1 b else c2 b).
  assert (forall a, (exists i, (S j <= i)%nat /\ Rg i a) -> ~ V a) as NV2 by (intros a (i & _ & Ra); apply (D i a Ra)).
  assert (forall a, Rg j a -> ~ (exists i, (S j <= i)%nat /\ Rg i a)) as DJ.
  { intros a Rj (i & Hi & Ri). destruct (D _ _ Rj) as [D1 _]. destruct (D _ _ Ri) as [D2 _]. lia. }
  split; [exact E2|]. split; [|split; [cbn; lia|split]].
  - apply (into_trans T s L1 s1 L2 s').
    + eapply into_sub; [|exact I1]. intros a Ra. exists j. auto.
    + eapply into_sub; [|exact I2]. intros a (i & Hi & Ra). exists i. split; [lia|exact Ra].
  - intros [|i] z w Ez Ew; cbn in Ez, Ew.
    + injection Ez as <-. injection Ew as <-. eapply into_keep; [exact I2|exact NV2| |exact O1]. cbv beta. rewrite Nat.add_0_r. intros a [Ra Ca]. split; [now apply DJ|]. split; [exact Ra|].
      destruct (D _ _ Ra) as [-> _]. now rewrite Nat.eqb_refl.
    + eapply own_mono; [|apply (O3 i z w); assumption]. cbv beta. intros a [Ra Ca]. replace (j + S i)%nat with (S j + i)%nat by lia. split; [exact Ra|].
      destruct (D _ _ Ra) as [-> _]. replace (Nat.eqb (S j + i) j) with false by (symmetry; apply Nat.eqb_neq; lia). exact Ca.
  - apply gave_app.
    + eapply gave_keep; [exact I2|exact NV2| |exact G1]. intros a i Ra Ca _. split; [now apply DJ|]. split; [exists j; auto|]. destruct (D _ _ Ra) as [-> _]. now rewrite Nat.eqb_refl.
    + eapply gave_mono; [|exact G2]. cbv beta. intros a i0 (i & Hi & Ra) Ca. split; [exists i; split; [lia|exact Ra]|].
      destruct (D _ _ Ra) as [-> _]. replace (Nat.eqb i j) with false by (symmetry; apply Nat.eqb_neq; lia). exact Ca.
    + intros a H1 H2. destruct (gave_in _ _ _ _ _ _ G1 H1) as [Ra _]. destruct (gave_in _ _ _ _ _ _ G2 H2) as [Rb' _]. now apply (DJ a Ra).
Qed.

Lemma nth_slice {A} (es : list A) off len i d : (off + len <= length es)%nat -> (i < len)%nat -> nth_error (firstn len (skipn off es)) i = Some (nth (off + i) es d).
Proof.
  intros L Li. rewrite (nth_error_nth' _ d) by (rewrite firstn_length, skipn_length; lia). f_equal.
  assert (nth i (skipn off es) d = nth (off + i) es d) as <-.
  { clear. revert es. induction off as [|off IH]; intros es; [reflexivity|]. destruct es; cbn [skipn Nat.add nth]; [now destruct i|apply IH]. }
  pose proof (firstn_skipn len (skipn off es)) as E. rewrite <- E at 2. rewrite app_nth1; [reflexivity|]. rewrite firstn_length, skipn_length. lia.
Qed.
(** A list of messages: its elements are left in the spare capacity. *)
Lemma list_msgs_sim m l hl arr off cap s (Q : nat -> Prop) : (forall b, Q b -> ~ V b) -> (forall x, In x l -> exists b, rs m x b) ->
  oslot (heap s) Q (VList l) hl (HSlice arr off (length l) cap) ->
  exists es, nth_error (heap s) arr = Some (OArr es) /\ (off + length l <= length es)%nat /\
  match reset_elems sc rec m l with
  | Ok (l', q) => exists s' L c, hreset_elems sc hrec m (firstn (length l) (skipn off es)) s = Done tt s' /\ into Q s L s' /\ gave (heap s') Q c q L /\
      oslot (heap s') (fun b => Q b /\ c b = 0%nat) (VList []) (l' ++ hl) (HSlice arr off 0 cap)
  | Panic => exists s', hreset_elems sc hrec m (firstn (length l) (skipn off es)) s = Crash s'
  | _ => True
  end.
Proof.
  intros NV R (k & O & Fh & Cl). apply own_list in O as (arr' & off' & cap' & es & c0 & E & [Qa Ka] & N & Lc & Le & F). injection E as <- <- <-.
  exists es. split; [exact N|]. split; [lia|].
  set (Rg := fun j => part (fun b => Q b /\ k b = 0%nat) arr c0 j).
  pose proof (reset_elems_sim m l 0 (firstn (length l) (skipn off es)) s Rg c0) as X. cbv zeta in X.
  assert (length (firstn (length l) (skipn off es)) = length l) as Ll by (rewrite firstn_length, skipn_length; lia).
  specialize (X (fun i b H => conj (proj2 (proj2 H)) (NV b (proj1 (proj1 H)))) Ll).
  match type of X with ?A -> _ => assert A as Y end.
  { intros i x y Ex Ey. assert (i < length l)%nat as Li by (apply nth_error_Some; congruence). rewrite (nth_slice es off (length l) i HNil) in Ey by lia. injection Ey as <-. now apply F. }
  specialize (X Y R). clear Y. destruct (reset_elems sc rec m l) as [[l' q]| | |]; auto.
  destruct X as (s' & L & c & E & I & Ll' & O' & G).
  set (T := fun b => exists i, (0 <= i)%nat /\ Rg i b) in *.
  assert (forall b, T b -> Q b /\ b <> arr /\ k b = 0%nat) as HT by (intros b (i & _ & (Qb & Kb) & Nb & Cb); auto).
  exists s', L, (fun b => if Nat.eqb b arr || negb (Nat.eqb (k b) 0) then 0%nat else c b).
  assert (forall b, T b -> (if Nat.eqb b arr || negb (Nat.eqb (k b) 0) then 0%nat else c b) = c b) as HC.
  { intros b Tb. destruct (HT b Tb) as (_ & Nb & ->). now rewrite (proj2 (Nat.eqb_neq _ _) Nb). }
  split; [exact E|]. split; [eapply into_sub; [|exact I]; intros b Tb; now apply HT|]. split.
  { eapply gave_mono; [|exact G]. cbv beta. intros b i Tb Cb. rewrite HC by exact Tb. split; [now apply HT|exact Cb]. }
  assert (nth_error (heap s') arr = Some (OArr es)) as N' by (destruct I as (_ & I & _); rewrite I; [exact N|]; intros Ta; now destruct (HT _ Ta) as (_ & ? & _)).
  assert (forall b, T b -> ~ V b) as NVT by (intros b Tb; apply NV; now apply HT).
  assert (forall j, spare_at (heap s') (HSlice arr off 0 cap) (length l + j) = spare_at (heap s) (HSlice arr off (length l) cap) j) as Sp.
  { intros j. cbn [spare_at]. rewrite N, N'. cbn [Nat.add]. destruct (Nat.ltb _ cap); [|reflexivity]. f_equal. lia. }
  exists (fun b => if Nat.eqb b arr then 0%nat else if Nat.eqb (k b) 0 then S (c0 b) else (k b + length l)%nat). split; [|split].
  - apply own_list. exists arr, off, cap, es, c0. rewrite Nat.eqb_refl. cbn [length orb]. repeat (split; [auto; lia|]). intros [|j]; discriminate.
  - intros j y Ej. destruct (Nat.lt_ge_cases j (length l)) as [Lj|Lj].
    + rewrite nth_error_app1 in Ej by lia. assert (spare_at (heap s') (HSlice arr off 0 cap) j = nth (off + j) es HNil) as ->.
      { cbn [spare_at]. rewrite N'. cbn [Nat.add]. rewrite (proj2 (Nat.ltb_lt j cap)) by lia. f_equal. lia. }
      eapply own_mono; [|apply (O' j y); [exact Ej|now apply nth_slice; [lia|]]]. cbv beta. cbn [Nat.add]. intros b [Rb Cb].
      assert (T b) as Tb by (exists j; split; [lia|exact Rb]). rewrite HC by exact Tb. destruct Rb as ((Qb & Kb) & Nb & C0). rewrite (proj2 (Nat.eqb_neq _ _) Nb), Kb. cbn. auto.
    + rewrite nth_error_app2 in Ej by lia. replace j with (length l + (j - length l))%nat by lia. rewrite Sp. rewrite Ll' in Ej.
      eapply into_keep; [exact I|exact NVT| |apply Fh; exact Ej]. cbv beta. intros b [Qb Kb]. split.
      * intros Tb. destruct (HT b Tb) as (_ & _ & ?). congruence.
      * rewrite Kb. cbn [Nat.eqb negb]. rewrite orb_true_r. split; [auto|]. destruct (Nat.eqb_spec b arr) as [->|_]; [congruence|]. lia.
  - intros Hp j b Hj. rewrite app_length, Ll' in Hj. replace j with (length l + (j - length l))%nat by lia. rewrite Sp. apply Cl; [exact Hp|lia].
Qed.
(** Other lists. *)
Lemma own_flat h (P : nat -> Prop) k x y b : rv k x b -> sub_of k = None -> own h P x y -> forall a, y <> HPtr a.
Proof.
  intros R Sk O a ->. inversion R as [? z N|? ? ? K Oa Pb E|? ? ? ? S0]; subst; [discriminate O| |congruence].
  destruct Oa as [[_ [s ->]]|[_ [->|[s ->]]]]; cbn in O; try contradiction; [discriminate|]. destruct O as [O|[_ O]]; contradiction O.
Qed.
Lemma list_cut_sim k l l0 arr off cap s (Q : nat -> Prop) : (forall b, Q b -> ~ V b) -> Forall2 (rv k) l l0 -> sub_of k = None ->
  oslot (heap s) Q (VList l) [] (HSlice arr off (length l) cap) ->
  exists s', (match classify k with CStr | CByt => hclear k (HSlice arr off (length l) cap) | _ => dret tt end) s = Done tt s' /\ into Q s [] s' /\
    oslot (heap s') Q (VList []) [] (HSlice arr off 0 cap).
Proof.
  intros NV R Sk O. apply own_slot_nil in O as [O Cl]. apply own_list in O as (arr' & off' & cap' & es & c0 & E & Qa & N & Lc & Le & F). injection E as <- <- <-.
  assert (arr < length (heap s))%nat as La by (apply nth_error_Some; congruence).
  assert (forall s' es', into Q s [] s' -> nth_error (heap s') arr = Some (OArr es') -> length es' = length es -> (forall j, (j < length l)%nat -> forall b, nth (off + j) es' HNil <> HPtr b) ->
    (forall j, (length l <= j)%nat -> nth (off + j) es' HNil = nth (off + j) es HNil) -> oslot (heap s') Q (VList []) [] (HSlice arr off 0 cap)) as Fin.
  { intros s' es' I N' Le' H1 H2. apply own_slot_nil. split.
    - apply own_list. exists arr, off, cap, es', c0. cbn [length]. repeat (split; [auto; lia|]). intros [|j]; discriminate.
    - intros Hp j b _. cbn [spare_at]. rewrite N'. cbn [Nat.add]. destruct (Nat.ltb_spec j cap) as [Lj|Lj]; [|discriminate]. rewrite Nat.add_0_r.
      destruct (Nat.lt_ge_cases j (length l)) as [Lj'|Lj']; [now apply H1|]. rewrite H2 by exact Lj'.
      specialize (Cl Hp (j - length l)%nat b ltac:(lia)). cbn [spare_at] in Cl. rewrite N in Cl. replace (length l + (j - length l))%nat with j in Cl by lia.
      rewrite (proj2 (Nat.ltb_lt _ _) Lj) in Cl. replace (off + length l + (j - length l))%nat with (off + j)%nat in Cl by lia. exact Cl. }
  assert (forall j, (j < length l)%nat -> forall b, nth (off + j) es HNil <> HPtr b) as Flat.
  { intros j Lj b. destruct (nth_error l j) as [x|] eqn:Ex; [|apply nth_error_None in Ex; lia].
    assert (exists y, rv k x y) as [y Ry].
    { clear - R Ex. revert j Ex. induction R as [|x' y' l l0 V0 R IH]; intros [|j] Ex; try discriminate; cbn in Ex; [injection Ex as <-; eauto|eauto]. }
    eapply own_flat; eauto. }
  assert (exists s', dret tt s = Done tt s' /\ into Q s [] s' /\ oslot (heap s') Q (VList []) [] (HSlice arr off 0 cap)) as Plain.
  { exists s. split; [reflexivity|]. split; [apply into_refl|]. apply (Fin s es); auto. apply into_refl. }
  set (z := match classify k with CStr => HStr [] | _ => HNil end).
  assert (exists s', hclear k (HSlice arr off (length l) cap) s = Done tt s' /\ into Q s [] s' /\ oslot (heap s') Q (VList []) [] (HSlice arr off 0 cap)) as Clear.
  { cbn [hclear]. unfold acc, bind, load. rewrite N. unfold Heap.store. rewrite (proj2 (Nat.ltb_lt _ _) La). eexists. split; [reflexivity|].
    match goal with |- into Q s [] ?t /\ _ => assert (into Q s [] t) as I end.
    { split; [apply list_set_length|]. split; [|split; reflexivity]. intros b Nb. cbn [heap]. rewrite set_nth_error by exact La. destruct (Nat.eqb_spec arr b) as [<-|]; [contradiction|reflexivity]. }
    split; [exact I|]. eapply (Fin _ _ I); [cbn [heap]; now apply nth_error_set_eq| | |].
    - rewrite !app_length, repeat_length, firstn_length, skipn_length. lia.
    - intros j Lj b. rewrite app_nth2 by (rewrite firstn_length; lia). rewrite firstn_length, Nat.min_l by lia. replace (off + j - off)%nat with j by lia.
      rewrite app_nth1 by (rewrite repeat_length; lia). fold z. assert (nth j (repeat z (length l)) HNil = z \/ nth j (repeat z (length l)) HNil = HNil) as [->| ->]; [|unfold z; destruct (classify k); discriminate|discriminate].
      clear. revert j. induction (length l) as [|n IH]; intros [|j]; cbn; auto.
    - intros j Lj. rewrite app_nth2 by (rewrite firstn_length; lia). rewrite firstn_length, Nat.min_l by lia. replace (off + j - off)%nat with j by lia.
      rewrite app_nth2 by (rewrite repeat_length; lia). rewrite repeat_length. 
      assert (forall n i, nth i (skipn n es) HNil = nth (n + i) es HNil) as SkN.
      { clear. intros n. revert es. induction n as [|n IH]; intros es i; [reflexivity|]. destruct es; cbn [skipn Nat.add nth]; [now destruct i|apply IH]. }
      rewrite SkN. f_equal. lia. }
  destruct (classify k); assumption.
Qed.
(** Byte slices. *)
Lemma bytes_cut_sim x t s (Q : nat -> Prop) : (t = VNil \/ exists z, t = VBytes z) -> own (heap s) Q t x ->
  exists y, cut0 x s = Done y s /\ oslot (heap s) Q (truncate t) [] y.
Proof.
  intros [->|[z ->]] O.
  - cbn [owns] in O. subst x. exists HNil. split; [reflexivity|]. apply own_slot_nil. split; [reflexivity|]. intros _ j b _. discriminate.
  - destruct O as [O|[Un O]]; destruct x as [| | | | |a off len cap|]; try contradiction O.
    + exists (HSlice a off 0 cap). split; [reflexivity|]. destruct O as (Qa & Lc & b & N & [Sl _] & Le). apply own_slot_nil. split.
      * left. split; [exact Qa|]. split; [lia|]. exists b. split; [exact N|]. split; [split; [lia|reflexivity]|exact Le].
      * intros _ j b' _. cbn [spare_at]. rewrite N. destruct (Nat.ltb _ _); discriminate.
    + exists (HSlice a off 0 cap). split; [reflexivity|]. destruct O as (Va & b & N & [Sl _]). apply own_slot_nil. split.
      * right. split; [exact Un|]. split; [exact Va|]. exists b. split; [exact N|]. split; [lia|reflexivity].
      * intros _ j b' _. cbn [spare_at]. rewrite N. destruct (Nat.ltb _ _); discriminate.
Qed.

(** * One field *)
Lemma rf_bytes m f l a b : f_ty f = TField l KBytes -> (l = LImplicit \/ l = LOptional \/ l = LRequired) -> rf m f a b -> a = VNil \/ exists z, a = VBytes z.
Proof.
  intros T Hl R. assert (forall a b, rv KBytes a b -> a = VNil \/ exists z, a = VBytes z) as H.
  { intros a0 b0 R0. inversion R0 as [? z N|? ? ? K [[E _]|[_ O]]|? ? ? ? S0]; subst; try discriminate. exact O. }
  inversion R; subst; try (match goal with T0 : f_ty f = _ |- _ => rewrite T in T0; injection T0; intros; subst end); eauto; try (destruct Hl as [|[|]]; discriminate);
    try (match goal with N : _ \/ KBytes = KString |- _ => destruct N; discriminate end); try (match goal with T0 : f_ty f = _ |- _ => rewrite T in T0; discriminate end).
Qed.
Lemma rf_single m f l k m' a b : f_ty f = TField l k -> sub_of k = Some m' -> (l = LImplicit \/ l = LOptional \/ l = LRequired) -> rf m f a b -> rs m' a b.
Proof.
  intros T Sk Hl R.
  inversion R; subst; try (match goal with T0 : f_ty f = _ |- _ => rewrite T in T0; injection T0; intros; subst end); try apply rs_nil; try (destruct Hl as [|[|]]; discriminate);
    try (eapply rv_rs; eassumption); try discriminate; try (match goal with T0 : f_ty f = _ |- _ => rewrite T in T0; discriminate end).
  match goal with N : is_num ?k = true \/ _ |- _ => destruct N as [N|N]; destruct k; discriminate end.
Qed.
Section Field.
Variables (m a : nat) (hs : list hval) (u : hval) (ss : list val) (hid : list (list val)) (ss' : list val).
Variable Rg : nat -> nat -> Prop.
Variable c0 : nat -> nat.
Hypothesis RgD : forall i b, Rg i b -> c0 b = i /\ ~ V b /\ b <> a.
Hypothesis Fs : forall f, In f (md_fields (md_of sc m)) -> rf m f (slot ss (f_slot f)) (slot ss' (f_slot f)).
Hypothesis Hd : forall i, nth i hid [] <> [] -> message_list sc m i.

(** What a field needs of the memory. *)
Definition ready (f : fdesc) (h : list obj) : Prop :=
  let i := f_slot f in
  if is_oneof f then
    (slot ss i = VNil /\ nth i hs HNil = HNil) \/
    exists n x w y, slot ss i = VOneof n x /\ nth i hs HNil = HPtr w /\ Rg i w /\ nth_error h w = Some (OWrap n y) /\
      (n = f_num f -> own h (fun b => Rg i b /\ b <> w) x y)
  else oslot h (Rg i) (slot ss i) (nth i hid []) (nth i hs HNil).
(** What it changes. *)
Definition touched (f : fdesc) (b : nat) : Prop :=
  Rg (f_slot f) b /\ (is_oneof f = true -> (exists x, slot ss (f_slot f) = VOneof (f_num f) x) /\ nth (f_slot f) hs HNil <> HPtr b).
Lemma touched_rg f b : touched f b -> Rg (f_slot f) b. Proof. now intros [? _]. Qed.
Lemma touched_v f b : touched f b -> ~ V b. Proof. intros [H _]. now apply RgD in H. Qed.
Lemma no_hidden f : In f (md_fields (md_of sc m)) -> is_oneof f = false -> (forall p k m', f_ty f = TField (LRepeated p) k -> sub_of k = Some m' -> False) -> nth (f_slot f) hid [] = [].
Proof.
  intros Hf O H. destruct (nth (f_slot f) hid []) as [|x r] eqn:E; [reflexivity|]. exfalso. destruct (Hd (f_slot f)) as (_ & g & p & k & m' & Hg & Es & T & Sk); [congruence|].
  destruct (Z.eq_dec (f_num f) (f_num g)) as [En|En].
  - assert (g = f) as -> by (eapply wf_num_inj; eauto). eapply H; eauto.
  - destruct (wf_compat sc m f g W Hf Hg) as [_ C]; [congruence|]. destruct C as [C _]; congruence.
Qed.

Definition sim_field (f : fdesc) (s : mem) (A : D (option hval)) (R : res unit (option (val * list val) * puts)) : Prop :=
  match R with
  | Ok (saved, q) => exists r s' L c, A s = Done r s' /\ into (touched f) s L s' /\ gave (heap s') (touched f) c q L /\
      match saved, r with
      | Some (x, hl), Some y => is_oneof f = false /\ oslot (heap s') (fun b => Rg (f_slot f) b /\ c b = 0%nat) x hl y
      | None, None => True
      | _, _ => False
      end
  | Panic => exists s', A s = Crash s'
  | _ => True
  end.
Lemma sim_eq f s A B R : A s = B s -> sim_field f s B R -> sim_field f s A R.
Proof. intros E. unfold sim_field. now rewrite E. Qed.
Lemma sim_quiet f s : sim_field f s (dret None) (Ok (None, [])).
Proof. exists None, s, [], (fun _ => 0%nat). split; [reflexivity|]. split; [apply into_refl|]. split; [apply gave_nil|exact Logic.I]. Qed.
Definition one_msg (m' : nat) (v : val) : res unit (option (val * list val) * puts) :=
  if md_pool (md_of sc m') then do p <- return_sub rec m' v; Ok (None, p) else Ok (None, []).
Definition hone_msg (f : fdesc) (m' : nat) : D (option hval) :=
  if md_pool (md_of sc m') then dec! x := dget (HPtr a) (f_slot f) in dec! _ := hreturn hrec m' x in dret None else dret None.

Lemma single_sim f s l k : In f (md_fields (md_of sc m)) -> nth_error (heap s) a = Some (OMsg hs u) -> ready f (heap s) -> f_ty f = TField l k -> l = LImplicit \/ l = LOptional \/ l = LRequired ->
  sim_field f s (match classify k with
        | CMsg m | CGrp m => hone_msg f m
        | CByt => dec! x := dget (HPtr a) (f_slot f) in dec! y := cut0 x in dret (Some y)
        | _ => dret None end)
    (match classify k with
      | CMsg m | CGrp m => one_msg m (slot ss (f_slot f))
      | CByt => Ok (Some (truncate (slot ss (f_slot f)), []), [])
      | _ => Ok (None, []) end).
Proof.
  intros Hf N Rd T Hl. pose proof (Fs f Hf) as Rf. unfold ready in Rd.
  pose proof (dget_done a (f_slot f) s hs u N) as G. set (v := slot ss (f_slot f)) in *. set (x := nth (f_slot f) hs HNil) in *.
  assert (is_oneof f = false) as No by (unfold is_oneof; rewrite T; destruct Hl as [->|[->| ->]]; reflexivity). rewrite No in Rd.
  rewrite (no_hidden f Hf No) in Rd by (intros p k0 m0 T0; rewrite T in T0; injection T0 as -> _; destruct Hl as [|[|]]; discriminate).
  apply own_slot_nil in Rd as [Rd Cl]. destruct (sub_of k) as [m'|] eqn:Sk.
  - pose proof (rf_single m f l k m' _ _ T Sk Hl Rf) as R.
    assert (sim_field f s (hone_msg f m') (one_msg m' v)) as Y; [|now destruct (classify_sub k m' Sk) as [-> | ->]].
    unfold hone_msg, one_msg. destruct (md_pool (md_of sc m')) eqn:Pm; [|apply sim_quiet].
    pose proof (return_sim m' v _ x (touched f) s Pm R (touched_v f)) as X.
    assert (own (heap s) (touched f) v x) as O. { eapply own_mono; [|exact Rd]. intros b Rb. split; [exact Rb|]. congruence. }
    specialize (X O). unfold sim_field. rewrite (dbind_done _ _ _ _ _ G). destruct (return_sub rec m' v) as [q| | |]; cbn [rbind]; auto.
    + destruct X as (s1 & L & c & E & I & Gv). exists None, s1, L, c. rewrite (dbind_done _ _ _ _ _ E). auto.
    + destruct X as (s1 & E). exists s1. unfold dbind. now rewrite E.
  - destruct (classify k) eqn:Ck; try apply sim_quiet; [|destruct k; discriminate|destruct k; discriminate].
    assert (k = KBytes) as -> by (destruct k; discriminate || reflexivity).
    destruct (bytes_cut_sim x v s (fun b => Rg (f_slot f) b /\ 0%nat = 0%nat)) as (y & E & O); [eapply rf_bytes; eauto|eapply own_mono; [|exact Rd]; auto|].
    exists (Some y), s, [], (fun _ => 0%nat). rewrite (dbind_done _ _ _ _ _ G), (dbind_done _ _ _ _ _ E). split; [reflexivity|]. split; [apply into_refl|]. split; [apply gave_nil|]. auto.
Qed.

Lemma reset_field_sim f s : In f (md_fields (md_of sc m)) -> nth_error (heap s) a = Some (OMsg hs u) -> ready f (heap s) ->
  sim_field f s (hreset_field sc hrec f (HPtr a)) (reset_field sc rec f ss hid).
Proof.
  intros Hf N Rd0. pose proof (Fs f Hf) as Rf. pose proof Rd0 as Rd. unfold ready in Rd. unfold reset_field, hreset_field.
  pose proof (dget_done a (f_slot f) s hs u N) as G. set (v := slot ss (f_slot f)) in *. set (x := nth (f_slot f) hs HNil) in *.
  destruct (f_ty f) as [[| | |p|] k|kk vk] eqn:T; [now apply (single_sim f s LImplicit k); auto|now apply (single_sim f s LOptional k); auto|now apply (single_sim f s LRequired k); auto| | |apply sim_quiet]; clear Rd0.
  all: cycle 1.
  - (* oneof *)
    assert (is_oneof f = true) as Ho by (unfold is_oneof; now rewrite T). rewrite Ho in Rd.
    destruct (sub_of k) as [m'|] eqn:Sk; [|destruct k; try discriminate; cbn [classify]; apply sim_quiet].
    match goal with |- sim_field _ _ _ ?A => assert (A = match v with VOneof n x => if (n =? f_num f) && md_pool (md_of sc m') then do p <- return_sub rec m' x; Ok (None, p) else Ok (None, []) | _ => Ok (None, []) end) as -> by (now destruct (classify_sub k m' Sk) as [-> | ->]) end.
    set (A := (if md_pool (md_of sc m') then
            dec! x := dget (HPtr a) (f_slot f) in
            match x with
            | HPtr w => dec! o := acc (load w) in
                match o with OWrap n y => if n =? f_num f then dec! _ := hreturn hrec m' y in dret None else dret (@None hval) | _ => dstuck end
            | HNil => dret None
            | _ => dstuck
            end
          else dret None) : D (option hval)).
    match goal with |- sim_field _ _ _ ?R => assert (sim_field f s A R) as Y; [|unfold A in Y; now destruct (classify_sub k m' Sk) as [-> | ->]] end.
    unfold A. clear A. destruct (md_pool (md_of sc m')) eqn:Pm; [|destruct v; try (destruct (_ =? _)); apply sim_quiet].
    eapply sim_eq; [exact (dbind_done _ _ _ _ _ G)|]. destruct Rd as [[-> ->]|(n & x0 & w & y & Ev & Ex & Rw & Nw & Ow)]; [apply sim_quiet|]. rewrite Ev, Ex in *.
    assert (acc (load w) s = Done (OWrap n y) s) as El by (unfold acc, load; now rewrite Nw). eapply sim_eq; [exact (dbind_done _ _ _ _ _ El)|].
    destruct (Z.eqb_spec n (f_num f)) as [->|Nn]; [|apply sim_quiet]. cbn [andb].
    assert (rs m' x0 (match slot ss' (f_slot f) with VOneof _ y => y | _ => VNil end)) as R.
    { inversion Rf as [? ? ? ? ? T0|? ? ? ? T0|? ? ? T0|? ? ? ? ? ? T0|? ? ? ? ? ? T0|? ? ? ? ? ? T0 SH|? ? ? ? ? ? T0 SH|? ? ? T0|? ? ? ? ? ? T0 Nn|? ? ? ? ? T0 X]; subst; rewrite T in T0; try discriminate; try (injection T0; intros; subst); try congruence.
      all: try (match goal with H : _ \/ _ |- _ => destruct H; discriminate end). eapply rv_rs; eassumption. }
    assert (own (heap s) (touched f) x0 y) as O. { eapply own_mono; [|exact (Ow eq_refl)]. cbv beta. intros b [Rb Nb]. split; [exact Rb|]. intros _. fold v x. rewrite Ev, Ex. split; [eauto|]. congruence. }
    pose proof (return_sim m' x0 _ y (touched f) s Pm R (touched_v f) O) as X. destruct (return_sub rec m' x0) as [q| | |]; cbn [rbind]; auto.
    + destruct X as (s1 & L & c & E & I & Gv). exists None, s1, L, c. rewrite (dbind_done _ _ _ _ _ E). auto.
    + destruct X as (s1 & E). exists s1. unfold dbind. now rewrite E.
  - (* list *)
    assert (is_oneof f = false) as No by (unfold is_oneof; now rewrite T). rewrite No in Rd. eapply sim_eq; [exact (dbind_done _ _ _ _ _ G)|].
    destruct (rf_list_inv sc m f p k _ _ T Rf) as [Sh Fl]. fold v in Sh, Fl.
    assert (forall b, Rg (f_slot f) b -> touched f b) as Rt by (intros b Rb; split; [exact Rb|congruence]).
    destruct (sub_of k) as [m'|] eqn:Sk.
    + match goal with |- sim_field _ _ _ ?R => assert (R = (do r <- reset_elems sc rec m' (vlist v); Ok (Some (truncate v, fst r ++ nth (f_slot f) hid []), snd r))) as -> by (now destruct (classify_sub k m' Sk) as [-> | ->]) end.
      set (A := (dec! _ := match x with HNil => dret tt | _ => dec! l := acc (elems_of x) in hreset_elems sc hrec m' l end in dec! y := cut0 x in dret (Some y)) : D (option hval)).
      match goal with |- sim_field _ _ _ ?R => assert (sim_field f s A R) as Y; [|unfold A in Y; now destruct (classify_sub k m' Sk) as [-> | ->]] end.
      unfold A. clear A. destruct Sh as [Ev|[l Ev]]; rewrite Ev in *; cbn [vlist truncate].
      * assert (x = HNil) as Ex by (destruct Rd as (k0 & O & _); exact O). rewrite Ex in *. cbn [reset_elems rbind fst snd app].
        exists (Some HNil), s, [], (fun _ => 0%nat). split; [reflexivity|]. split; [apply into_refl|]. split; [apply gave_nil|]. split; [exact No|]. eapply own_slot_mono; [|exact Rd]. auto.
      * assert (exists arr off cap, x = HSlice arr off (length l) cap) as (arr & off & cap & Ex).
        { destruct Rd as (k0 & O & _). apply own_list in O as (arr & off & cap & es & c & E & _). eauto. }
        rewrite Ex in *. cbn [vlist] in Fl.
        destruct (list_msgs_sim m' l (nth (f_slot f) hid []) arr off cap s (touched f)) as (es & Ne & Le & X).
        { apply touched_v. }
        { intros x0 Hx. clear - Fl Sk Hx. induction Fl as [|x1 y1 l l0 V0 F IH]; [destruct Hx|]. destruct Hx as [->|Hx]; [exists y1; eapply rv_rs; eauto|auto]. }
        { eapply own_slot_mono; [|exact Rd]. exact Rt. }
        assert (acc (elems_of (HSlice arr off (length l) cap)) s = Done (firstn (length l) (skipn off es)) s) as El.
        { unfold acc. cbn [elems_of]. unfold bind, load. rewrite Ne, (proj2 (Nat.leb_le _ _) Le). reflexivity. }
        unfold sim_field.
        destruct (reset_elems sc rec m' l) as [[l' q]| | |]; cbn [rbind fst snd]; auto.
        -- destruct X as (s1 & L & c & E & I & Gv & O). exists (Some (HSlice arr off 0 cap)), s1, L, c. split; [unfold dbind; now rewrite El, E|]. split; [exact I|]. split; [exact Gv|]. split; [exact No|].
           eapply own_slot_mono; [|exact O]. cbv beta. intros b [Tb Cb]. split; [now apply touched_rg|exact Cb].
        -- destruct X as (s1 & E). exists s1. unfold dbind. now rewrite El, E.
    + rewrite (no_hidden f Hf No) in Rd by (intros p0 k0 m0 T0 S0; rewrite T in T0; injection T0 as <- <-; congruence).
      match goal with |- sim_field _ _ _ ?R => assert (R = Ok (Some (truncate v, []), [])) as -> by (destruct k; discriminate || reflexivity) end.
      match goal with |- sim_field _ _ ?B _ => assert (B = (dec! _ := (match classify k with CStr | CByt => hclear k x | _ => dret tt end) in dec! y := cut0 x in dret (Some y))) as -> by (destruct k; discriminate || reflexivity) end.
      destruct Sh as [Ev|[l Ev]]; rewrite Ev in *; cbn [vlist truncate].
      * assert (x = HNil) as Ex by (destruct Rd as (k0 & O & _); exact O). rewrite Ex in *.
        exists (Some HNil), s, [], (fun _ => 0%nat). split; [now destruct (classify k)|]. split; [apply into_refl|]. split; [apply gave_nil|]. split; [exact No|]. eapply own_slot_mono; [|exact Rd]. auto.
      * assert (exists arr off cap, x = HSlice arr off (length l) cap) as (arr & off & cap & Ex).
        { destruct Rd as (k0 & O & _). apply own_list in O as (arr & off & cap & es & c & E & _). eauto. }
        rewrite Ex in *. destruct (list_cut_sim k l _ arr off cap s (touched f) (touched_v f) Fl Sk) as (s1 & E & I & O); [eapply own_slot_mono; [|exact Rd]; exact Rt|].
        eapply sim_eq; [exact (dbind_done _ _ _ _ _ E)|]. exists (Some (HSlice arr off 0 cap)), s1, [], (fun _ => 0%nat). split; [reflexivity|]. split; [exact I|]. split; [apply gave_nil|]. split; [exact No|].
        eapply own_slot_mono; [|exact O]. cbv beta. intros b Tb. split; [now apply touched_rg|reflexivity].
Qed.

(** * The walk over the fields *)
Definition busy (f : fdesc) : bool := if is_oneof f then match slot ss (f_slot f) with VOneof n _ => n =? f_num f | _ => false end else true.
Lemma touched_busy f b : touched f b -> busy f = true.
Proof. intros [_ H]. unfold busy. destruct (is_oneof f); [|reflexivity]. destruct (H eq_refl) as [[x ->] _]. apply Z.eqb_refl. Qed.
Lemma busy_one f g : In f (md_fields (md_of sc m)) -> In g (md_fields (md_of sc m)) -> f_num f <> f_num g -> busy f = true -> busy g = true -> f_slot f <> f_slot g.
Proof.
  intros Hf Hg En Bf Bg E. destruct (wf_compat sc m f g W Hf Hg) as [_ C]; [congruence|]. destruct (C E) as [Of Og]. unfold busy in *. rewrite Of in Bf. rewrite Og, <- E in Bg.
  destruct (slot ss (f_slot f)); try discriminate. apply Z.eqb_eq in Bf, Bg. congruence.
Qed.
Lemma touched_one f g b : In f (md_fields (md_of sc m)) -> In g (md_fields (md_of sc m)) -> f_num f <> f_num g -> busy f = true -> touched g b -> c0 b <> f_slot f.
Proof. intros Hf Hg En Bf Tg E. destruct (RgD _ _ (touched_rg _ _ Tg)) as [E' _]. apply (busy_one f g Hf Hg En Bf (touched_busy _ _ Tg)). congruence. Qed.
Lemma ready_keep f g s L s' : In f (md_fields (md_of sc m)) -> In g (md_fields (md_of sc m)) -> f_num f <> f_num g -> into (touched f) s L s' -> ready g (heap s) -> ready g (heap s').
Proof.
  intros Hf Hg En I R. unfold ready in *. destruct (is_oneof g) eqn:Og.
  - destruct R as [R|(n & x & w & y & E1 & E2 & Rw & Nw & O)]; [now left|right]. exists n, x, w, y. split; [exact E1|]. split; [exact E2|]. split; [exact Rw|]. split.
    + destruct I as (_ & I & _). rewrite I; [exact Nw|]. intros Tw. pose proof Tw as [Rw' H]. assert (f_slot f = f_slot g) as Es by (destruct (RgD _ _ Rw), (RgD _ _ Rw'); congruence).
      destruct (wf_compat sc m f g W Hf Hg) as [_ C]; [congruence|]. destruct (C Es) as [Of _]. destruct (H Of) as [_ Nw']. rewrite Es in Nw'. congruence.
    + intros ->. eapply into_keep; [exact I|apply touched_v| |exact (O eq_refl)]. cbv beta. intros b [Rb Nb]. split; [|auto]. intros Tb.
      apply (touched_one g f b Hg Hf) in Tb; [destruct (RgD _ _ Rb); congruence|congruence|]. unfold busy. rewrite Og, E1. apply Z.eqb_refl.
  - eapply into_keep_slot; [exact I|apply touched_v| |exact R]. intros b Rb. split; [|auto]. intros Tb.
    apply (touched_one g f b Hg Hf) in Tb; [destruct (RgD _ _ Rb); congruence|congruence|]. unfold busy. now rewrite Og.
Qed.
Lemma touched_recv f : ~ touched f a. Proof. intros [R _]. now apply RgD in R. Qed.

Definition sets (l : list (nat * hval)) (hs0 : list hval) : list hval := fold_left (fun hs e => list_set hs (fst e) (snd e)) l hs0.
Definition any (fs : list fdesc) (b : nat) : Prop := exists f, In f fs /\ touched f b.
Let n := md_nslots (md_of sc m).
Lemma reset_fields_sim fs : incl fs (md_fields (md_of sc m)) -> NoDup (map f_num fs) -> forall s acc acch, nth_error (heap s) a = Some (OMsg hs u) -> (forall f, In f fs -> ready f (heap s)) ->
  length acc = n -> length acch = n ->
  match reset_fields sc rec ss hid fs acc acch with
  | Ok (aa, hh, q) => exists l s' L c, hreset_fields sc hrec fs (HPtr a) s = Done l s' /\ into (any fs) s L s' /\ gave (heap s') (any fs) c q L /\ length aa = n /\ length hh = n /\
      forall (Q : nat -> nat -> Prop) hs0, length hs0 = n -> (forall i, (i < n)%nat -> oslot (heap s') (Q i) (slot acc i) (nth i acch []) (nth i hs0 HNil)) ->
        (forall g b, In g fs -> is_oneof g = false -> Rg (f_slot g) b -> c b = 0%nat -> Q (f_slot g) b) ->
        forall i, (i < n)%nat -> oslot (heap s') (Q i) (slot aa i) (nth i hh []) (nth i (sets l hs0) HNil)
  | Panic => exists s', hreset_fields sc hrec fs (HPtr a) s = Crash s'
  | _ => True
  end.
Proof.
  induction fs as [|f fs IH]; intros Hin ND s acc acch N Rd La Lh.
  { cbn [reset_fields]. exists [], s, [], (fun _ => 0%nat). split; [reflexivity|]. split; [apply into_refl|]. split; [apply gave_nil|]. auto. }
  assert (In f (md_fields (md_of sc m))) as Hf by (apply Hin; now left). apply NoDup_cons_iff in ND as [Nf ND].
  assert (forall g, In g fs -> In g (md_fields (md_of sc m)) /\ f_num f <> f_num g) as Hg.
  { intros g Ig. split; [apply Hin; now right|]. intros E. apply Nf. rewrite E. now apply in_map. }
  pose proof (reset_field_sim f s Hf N (Rd f (or_introl eq_refl))) as X. unfold sim_field in X.
  cbn [reset_fields hreset_fields]. destruct (reset_field sc rec f ss hid) as [[saved q1]| | |] eqn:Ef; cbn [rbind]; auto.
  2:{ destruct X as (s1 & E). exists s1. unfold dbind. now rewrite E. }
  destruct X as (r & s1 & L1 & c1 & E1 & I1 & G1 & Sv).
  set (acc' := match saved with Some (x, h) => (list_set acc (f_slot f) x, list_set acch (f_slot f) h) | None => (acc, acch) end).
  assert (exists a1 a2, acc' = (a1, a2) /\ length a1 = n /\ length a2 = n) as (a1 & a2 & Ea & La1 & La2).
  { unfold acc'. destruct saved as [[x h]|]; do 2 eexists; split; try reflexivity; rewrite ?list_set_length; auto. }
  rewrite Ea. 
  assert (nth_error (heap s1) a = Some (OMsg hs u)) as N1. { destruct I1 as (_ & I1 & _). rewrite I1; [exact N|apply touched_recv]. }
  specialize (IH (fun g Ig => proj1 (Hg g Ig)) ND s1 a1 a2 N1).
  assert (forall g, In g fs -> ready g (heap s1)) as Rd1. { intros g Ig. destruct (Hg g Ig). eapply (ready_keep f g); eauto. apply Rd. now right. }
  specialize (IH Rd1 La1 La2). rewrite (dbind_done _ _ _ _ _ E1). destruct (reset_fields sc rec ss hid fs a1 a2) as [[[aa hh] q2]| | |] eqn:Er; cbn [rbind]; auto.
  2:{ destruct IH as (s2 & E2). exists s2. unfold dbind. now rewrite E2. }
  destruct IH as (l & s2 & L2 & c2 & E2 & I2 & G2 & Laa & Lhh & Fin).
  set (c := fun b => if busy f && Nat.eqb (c0 b) (f_slot f) then c1 b else c2 b).
  assert (forall b, touched f b -> c b = c1 b) as C1.
  { intros b Tb. unfold c. rewrite (touched_busy _ _ Tb). destruct (RgD _ _ (touched_rg _ _ Tb)) as [-> _]. now rewrite Nat.eqb_refl. }
  assert (forall b, any fs b -> c b = c2 b) as C2.
  { intros b (g & Ig & Tb). unfold c. destruct (busy f) eqn:Bf; [|reflexivity]. destruct (Hg g Ig) as [Hg1 Hg2]. rewrite (proj2 (Nat.eqb_neq _ _) (touched_one f g b Hf Hg1 Hg2 Bf Tb)). reflexivity. }
  assert (forall b, touched f b -> ~ any fs b) as Dis.
  { intros b Tb (g & Ig & Tg). destruct (Hg g Ig) as [Hg1 Hg2]. apply (touched_one f g b Hf Hg1 Hg2 (touched_busy _ _ Tb)) in Tg. destruct (RgD _ _ (touched_rg _ _ Tb)). congruence. }
  assert (forall b, any fs b -> ~ V b) as NV by (intros b (g & _ & Tg); eapply touched_v; eauto).
  exists (match r with Some x => (f_slot f, x) :: l | None => l end), s2, (L2 ++ L1), c. split; [now rewrite (dbind_done _ _ _ _ _ E2)|]. split; [|split; [|split; [|split]]]; auto.
  - eapply into_trans; [eapply into_sub; [|exact I1]|eapply into_sub; [|exact I2]]; intros b; [exists f; cbn; auto|intros (g & Ig & Tg); exists g; cbn; auto].
  - apply gave_app.
    + eapply gave_keep; [exact I2|exact NV| |exact G1]. intros b i Tb Cb _. split; [now apply Dis|]. split; [exists f; cbn; auto|]. now rewrite C1.
    + eapply gave_mono; [|exact G2]. cbv beta. intros b i Tb Cb. rewrite C2 by exact Tb. split; [|exact Cb]. destruct Tb as (g & Ig & Tg). exists g; cbn; auto.
    + intros b H1 H2. destruct (gave_in _ _ _ _ _ _ G1 H1) as [Tb _]. destruct (gave_in _ _ _ _ _ _ G2 H2) as [Tb' _]. now apply (Dis b Tb).
  - intros Q hs0 Lh0 Base HQ.
    assert (forall hs1, length hs1 = n -> (forall i, (i < n)%nat -> oslot (heap s2) (Q i) (slot a1 i) (nth i a2 []) (nth i hs1 HNil)) -> forall i, (i < n)%nat -> oslot (heap s2) (Q i) (slot aa i) (nth i hh []) (nth i (sets l hs1) HNil)) as Use.
    { intros hs1 L3 B1. apply Fin; auto. intros g b Ig Og Rb Cb. apply HQ; auto; [now right|]. unfold c. destruct (busy f && Nat.eqb (c0 b) (f_slot f)) eqn:Bz; [|exact Cb].
      exfalso. apply andb_true_iff in Bz as [Bf Ec]. apply Nat.eqb_eq in Ec. destruct (Hg g Ig) as [Hg1 Hg2]. apply (busy_one f g Hf Hg1 Hg2 Bf); [unfold busy; now rewrite Og|]. destruct (RgD _ _ Rb). congruence. }
    unfold acc' in Ea. destruct saved as [[x hl]|]; destruct r as [y|]; try contradiction Sv; injection Ea as <- <-; [|now apply Use].
    destruct Sv as [Of Os]. change (sets ((f_slot f, y) :: l) hs0) with (sets l (list_set hs0 (f_slot f) y)). apply Use; [now rewrite list_set_length|]. intros i Li. destruct (Nat.eq_dec (f_slot f) i) as [<-|Ni].
    + rewrite slot_set_eq, !nth_list_set_eq by lia. eapply into_keep_slot; [exact I2|exact NV| |exact Os]. cbv beta. intros b [Rb Cb]. split.
      * intros (g & Ig & Tg). destruct (Hg g Ig) as [Hg1 Hg2]. apply (touched_one f g b Hf Hg1 Hg2) in Tg; [destruct (RgD _ _ Rb); congruence|]. unfold busy. now rewrite Of.
      * apply HQ; auto; [now left|]. unfold c. destruct (RgD _ _ Rb) as [-> _]. unfold busy. rewrite Of, Nat.eqb_refl. exact Cb.
    + rewrite slot_set_neq, !nth_list_set_neq by exact Ni. now apply Base.
Qed.
End Field.

(** * The body *)
Lemma restore_done a : forall l s hs u, nth_error (heap s) a = Some (OMsg hs u) -> exists s', hrestore l (HPtr a) s = Done tt s' /\ into (fun b => b = a) s [] s' /\ nth_error (heap s') a = Some (OMsg (sets l hs) u).
Proof.
  induction l as [|[i x] l IH]; intros s hs u N; cbn [hrestore].
  { exists s. split; [reflexivity|]. split; [apply into_refl|exact N]. }
  rewrite (dbind_done _ _ _ _ _ (dset_done a i x s hs u N)). pose proof (at_lt _ _ _ N) as La.
  destruct (IH (with_heap s (list_set (heap s) a (OMsg (list_set hs i x) u))) (list_set hs i x) u) as (s' & E & I & N').
  { cbn [with_heap heap]. now apply nth_error_set_eq. }
  exists s'. split; [exact E|]. split; [|exact N']. apply (into_trans _ s [] _ [] s') in I; [exact I|]. split; [cbn; apply list_set_length|]. split; [|split; reflexivity]. intros b Nb. cbn. apply nth_error_set_neq. congruence.
Qed.
Lemma reset_body_sim m t b v (P : nat -> Prop) s : rm m t b -> (forall x, P x -> ~ V x) -> own (heap s) P t v ->
  sim_reset P s (hreset_body sc hrec m v) (reset_body sc rec m t) v.
Proof.
  intros R NV O. inversion R as [? ss uu hid ss' hid' L1 L2 F Sp Nh Nl]; subst. apply own_msg in O as (_ & a & hs & u & c & -> & Pa & N & U & Lh & Lhid & Sl).
  cbn [reset_body hreset_body].
  set (Rg := fun i => part P a c (S i)). set (c0 := fun x => pred (c x)).
  assert (forall i x, Rg i x -> c0 x = i /\ ~ V x /\ x <> a) as RgD. { intros i x (Px & Nx & Cx). unfold c0. rewrite Cx. auto. }
  assert (forall f, In f (md_fields (md_of sc m)) -> ready hs ss hid Rg f (heap s)) as Rd.
  { intros f Hf. pose proof (wf_slot sc m f W Hf) as Ls. unfold ready. pose proof (Sl (f_slot f) ltac:(lia)) as X. destruct (is_oneof f) eqn:Of; [|exact X].
    assert (nth (f_slot f) hid [] = []) as E.
    { destruct (nth (f_slot f) hid []) eqn:E; [reflexivity|]. exfalso. destruct (Nl (f_slot f)) as (_ & g & p & k & m' & Hg & Es & T & _); [congruence|].
      destruct (wf_compat sc m f g W Hf Hg) as [_ C]; [intros ->; unfold is_oneof in Of; rewrite T in Of; discriminate|]. destruct C as [_ C]; [congruence|]. unfold is_oneof in C. rewrite T in C. discriminate. }
    rewrite E in X. apply own_slot_nil in X as [X _]. specialize (F f Hf). set (i := f_slot f) in *.
    assert (slot ss i = VNil \/ exists n x, slot ss i = VOneof n x) as [Ev|(n & x & Ev)].
    { unfold is_oneof in Of. destruct (f_ty f) as [[] k|] eqn:T; try discriminate. inversion F as [? ? ? ? ? T0|? ? ? ? T0|? ? ? T0|? ? ? ? ? ? T0|? ? ? ? ? ? T0|? ? ? ? ? ? T0|? ? ? ? ? ? T0|? ? ? T0|? ? ? ? ? ? T0 Nn|? ? ? ? ? T0 X0]; subst; eauto;
        rewrite T in T0; try discriminate T0; injection T0; intros; subst; try discriminate; match goal with H : _ \/ _ |- _ => destruct H; discriminate end. }
    - left. split; [exact Ev|]. rewrite Ev in X. exact X.
    - right. rewrite Ev in X. destruct X as (w & y & Ey & Pw & Nw & O). exists n, x, w, y. auto. }
  pose proof (reset_fields_sim m a hs u ss hid ss' Rg c0 RgD F Nl (md_fields (md_of sc m)) (incl_refl _) (wf_NoDup sc m W) s (zero_slots (md_of sc m)) (repeat [] (md_nslots (md_of sc m))) N Rd) as X.
  unfold zero_slots in X at 1. rewrite map_length, seq_length, repeat_length in X. specialize (X eq_refl eq_refl).
  destruct (reset_fields sc rec ss hid (md_fields (md_of sc m)) (zero_slots (md_of sc m)) (repeat [] (md_nslots (md_of sc m)))) as [[[aa hh] q]| | |]; cbn [rbind]; [|exact Logic.I| |exact Logic.I].
  2:{ destruct X as (s1 & E). exists s1. unfold dbind. now rewrite E. }
  destruct X as (l & s1 & L & cf & E1 & I1 & G1 & Laa & Lhh & Fin). set (T := any hs ss Rg (md_fields (md_of sc m))) in *.
  assert (forall x, T x -> P x /\ x <> a) as HT. { intros x (f & _ & Tx). destruct Tx as [(Px & Nx & _) _]. auto. }
  assert (nth_error (heap s1) a = Some (OMsg hs u)) as N1. { destruct I1 as (_ & I1 & _). rewrite I1; [exact N|]. intros Ta. now apply HT in Ta. }
  pose proof (at_lt _ _ _ N1) as La1.
  set (s2 := mkMem (list_set (heap s1) a (new_obj (md_of sc m))) (free s1) (picks s1)).
  assert (hReset sc m (HPtr a) s1 = Done tt s2) as E2. { unfold hReset, acc, bind, load. rewrite N1. unfold Heap.store. now rewrite (proj2 (Nat.ltb_lt _ _) La1). }
  assert (into (fun x => x = a) s1 [] s2) as I2. { split; [cbn; apply list_set_length|]. split; [|split; reflexivity]. intros x Nx. cbn. apply nth_error_set_neq. congruence. }
  destruct (restore_done a l s2 (map (hzero_slot (md_of sc m)) (seq 0 (md_nslots (md_of sc m)))) HNil) as (s3 & E3 & I3 & N3).
  { cbn [s2 heap]. apply nth_error_set_eq. exact La1. }
  pose proof (into_trans _ _ _ _ _ _ I2 I3) as I4. cbn [app] in I4.
  exists s3, L, (fun x => if Nat.eqb x a then 0%nat else cf x). split; [|split; [|split; [|split]]].
  - now rewrite (dbind_done _ _ _ _ _ E1), (dbind_done _ _ _ _ _ E2).
  - apply (into_trans P s L s1 [] s3).
    + eapply into_sub; [|exact I1]. intros x Tx. now apply HT.
    + eapply into_sub; [|exact I4]. now intros x ->.
  - apply own_msg. split; [discriminate|]. eexists a, _, HNil, c. split; [reflexivity|]. split; [rewrite Nat.eqb_refl; auto|]. split; [exact N3|]. split; [now left|]. rewrite Laa, Lhh.
    assert (forall l0 h0, length (sets l0 h0) = length h0) as Ls. { clear. induction l0 as [|[i x] l0 IH]; intros h0; cbn; [reflexivity|]. unfold sets in IH. now rewrite IH, list_set_length. }
    split; [rewrite Ls, map_length, seq_length; reflexivity|]. split; [lia|].
    intros i Li. eapply into_keep_slot; [exact I4|intros x ->; now apply NV| |apply (Fin (fun i x => Rg i x /\ cf x = 0%nat)); [now rewrite map_length, seq_length| | |exact Li]].
    + cbv beta. intros x ((Px & Nx & Cx) & Cf). split; [exact Nx|]. unfold part. rewrite (proj2 (Nat.eqb_neq _ _) Nx). auto.
    + intros j Lj. replace (nth j (repeat [] (md_nslots (md_of sc m))) []) with (@nil val).
      * apply own_slot_nil. unfold slot, zero_slots. rewrite (nth_indep _ VNil (zero_slot (md_of sc m) 0)) by (rewrite map_length, seq_length; assumption).
        rewrite (nth_indep _ HNil (hzero_slot (md_of sc m) 0)) by (rewrite map_length, seq_length; assumption). rewrite !map_nth, seq_nth by assumption. split; [apply zero_own|apply clean_zero].
      * symmetry. clear. revert j. induction (md_nslots (md_of sc m)) as [|k IH]; intros [|j]; cbn; auto.
    + auto.
  - eapply gave_keep; [exact I4|intros x ->; now apply NV| |exact G1]. intros x i Tx Cx _. destruct (HT x Tx) as [Px Nx]. rewrite (proj2 (Nat.eqb_neq _ _) Nx). auto.
  - eauto.
Qed.
End Reset.

Section Top.
Variable sc : schema.
Hypothesis W : wf_schema sc = true.
Hypothesis PL : pools_local sc.
Variables pl un : bool.
Variable V : nat -> Prop.
Notation own := (owns pl true un V).
Notation rs := (rs sc text (keeps sc)). Notation rm := (rm sc text (keeps sc)).
Lemma reset_nil n m s : hreset_msg sc (S n) m HNil s = Done tt s. Proof. reflexivity. Qed.
(** ResetVT. *)
Lemma ResetVT_sim n : forall n' m t b v (P : nat -> Prop) s, (n < n')%nat -> md_pool (md_of sc m) = true -> rm m t b -> (forall a, P a -> ~ V a) -> own (heap s) P t v ->
  sim_reset pl un V P s (hreset_msg sc n' m v) (reset_msg sc n m t) v.
Proof.
  induction n as [|n IH]; intros [|n'] m t b v P s L Pm R NV O; try lia; [exact Logic.I|]. cbn [reset_msg hreset_msg].
  eapply reset_body_sim; eauto.
  - intros m0 t0 b0 v0 P0 s0 Pm0 R0 NV0 O0. eapply IH; eauto. lia.
  - intros m0 s0. destruct n' as [|n']; [lia|]. apply reset_nil.
Qed.
(** ReturnToVTPool. *)
Lemma ReturnToVTPool_sim n' m t b v (P : nat -> Prop) s : (S (vdepth t) < n')%nat -> md_pool (md_of sc m) = true -> rs m t b -> (forall a, P a -> ~ V a) -> own (heap s) P t v ->
  match ReturnToVTPool sc m t with
  | Ok q => exists s' L c, hReturnToVTPool sc n' m v s = Done tt s' /\ into P s L s' /\ gave pl un V (heap s') P c q L
  | Panic => exists s', hReturnToVTPool sc n' m v s = Crash s'
  | _ => True
  end.
Proof.
  intros L Pm R NV O.
  pose proof (return_sim sc pl un V (fun m v => reset_msg sc (S (vdepth t)) m v) (hreset_msg sc n')) as X.
  specialize (X (fun m0 t0 b0 v0 P0 s0 Pm0 R0 NV0 O0 => ResetVT_sim (S (vdepth t)) n' m0 t0 b0 v0 P0 s0 L Pm0 R0 NV0 O0) PL m t b v P s Pm R NV O).
  unfold hReturnToVTPool. destruct t; exact X.
Qed.
End Top.
