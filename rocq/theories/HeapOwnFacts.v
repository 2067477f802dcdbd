(** Facts about trees in memory that share no object. *)
From Coq Require Import ZArith List Bool Lia.
From Verif Require Import Base BaseFacts Schema Value Helpers Typing TargetFacts Heap HeapSpec HeapFacts HeapRead HeapDec HeapOwnSpec.
From Verif Require Unmarshal.
Import ListNotations.
Open Scope Z_scope.

Section Facts.
Variables pl ru un : bool.
Variable V : nat -> Prop.
Notation own := (owns pl ru un V).

(** Induction over trees, also over what waits in spare capacity. *)
Section Full.
Variable Q : val -> Prop.
Hypothesis H0 : Q VNil.
Hypothesis H1 : forall z, Q (VInt z).
Hypothesis H2 : forall s, Q (VStr s).
Hypothesis H3 : forall s, Q (VBytes s).
Hypothesis H4 : forall x, Q x -> Q (VPtr x).
Hypothesis H5 : forall l, (forall x, In x l -> Q x) -> Q (VList l).
Hypothesis H6 : forall l, (forall e, In e l -> Q (snd e)) -> Q (VMap l).
Hypothesis H7 : forall n x, Q x -> Q (VOneof n x).
Hypothesis H8 : forall l u h, (forall x, In x l -> Q x) -> (forall r x, In r h -> In x r -> Q x) -> Q (VMsg l u h).
Hypothesis H9 : forall o l, Q (VRefS o l).
Hypothesis H10 : forall o l, Q (VRefB o l).
Fixpoint val_full_ind (v : val) {struct v} : Q v :=
  match v with
  | VNil => H0 | VInt z => H1 z | VStr s => H2 s | VBytes s => H3 s | VPtr x => H4 x (val_full_ind x)
  | VList l => H5 l ((fix all l : forall x, In x l -> Q x :=
      match l with
      | [] => fun x i => False_ind _ i
      | y :: l' => fun x i => match i with or_introl e => eq_ind y Q (val_full_ind y) x e | or_intror j => all l' x j end
      end) l)
  | VMap l => H6 l ((fix all l : forall e, In e l -> Q (snd e) :=
      match l with
      | [] => fun x i => False_ind _ i
      | (k, y) :: l' => fun x i => match i with or_introl e => eq_ind (k, y) (fun e => Q (snd e)) (val_full_ind y) x e | or_intror j => all l' x j end
      end) l)
  | VOneof n x => H7 n x (val_full_ind x)
  | VMsg l u h => H8 l u h
      ((fix all l : forall x, In x l -> Q x :=
      match l with
      | [] => fun x i => False_ind _ i
      | y :: l' => fun x i => match i with or_introl e => eq_ind y Q (val_full_ind y) x e | or_intror j => all l' x j end
      end) l)
      ((fix rows h : forall r x, In r h -> In x r -> Q x :=
      match h with
      | [] => fun r x i => False_ind _ i
      | r0 :: h' => fun r x i => match i with
         | or_introl e => eq_ind r0 (fun r => In x r -> Q x)
            ((fix all l : forall x, In x l -> Q x :=
              match l with
              | [] => fun x i => False_ind _ i
              | y :: l' => fun x i => match i with or_introl e => eq_ind y Q (val_full_ind y) x e | or_intror j => all l' x j end
              end) r0 x) r e
         | or_intror j => rows h' r x j end
      end) h)
  | VRefS o l => H9 o l | VRefB o l => H10 o l
  end.
End Full.

Lemma all_list (h : list obj) P a c off es l : forall i,
  (fix all (i : nat) (l : list val) {struct l} : Prop :=
     match l with [] => True | x :: l' => owns pl ru un V h (part P a c i) x (nth (off + i) es HNil) /\ all (S i) l' end) i l <->
  forall j x, nth_error l j = Some x -> owns pl ru un V h (part P a c (i + j)) x (nth (off + (i + j)) es HNil).
Proof.
  induction l as [|y l IH]; intros i; split; intros H.
  - intros [|j] x; discriminate.
  - exact I.
  - destruct H as [H1 H2]. rewrite IH in H2. intros [|j] x; cbn [nth_error].
    + intros [= <-]. now rewrite Nat.add_0_r.
    + intros E. specialize (H2 j x E). now rewrite <- plus_n_Sm.
  - split; [specialize (H 0%nat y eq_refl); now rewrite Nat.add_0_r in H|]. rewrite IH. intros j x E.
    specialize (H (S j) x E). now rewrite <- plus_n_Sm in H.
Qed.
Lemma all_slots (h : list obj) P a c k hs l : forall i,
  (fix all (i : nat) (l : list val) {struct l} : Prop :=
     match l with [] => True | x :: l' => owns pl ru un V h (part (part P a c (S i)) a k 0) x (nth i hs HNil) /\ all (S i) l' end) i l <->
  forall j x, nth_error l j = Some x -> owns pl ru un V h (part (part P a c (S (i + j))) a k 0) x (nth (i + j) hs HNil).
Proof.
  induction l as [|y l IH]; intros i; split; intros H.
  - intros [|j] x; discriminate.
  - exact I.
  - destruct H as [H1 H2]. rewrite IH in H2. intros [|j] x; cbn [nth_error].
    + intros [= <-]. now rewrite Nat.add_0_r.
    + intros E. specialize (H2 j x E). now rewrite <- plus_n_Sm.
  - split; [specialize (H 0%nat y eq_refl); now rewrite Nat.add_0_r in H|]. rewrite IH. intros j x E.
    specialize (H (S j) x E). now rewrite <- plus_n_Sm in H.
Qed.
Lemma all_each (h : list obj) (R : nat -> nat -> Prop) v l : forall i,
  (fix each (j : nat) (l : list val) {struct l} : Prop :=
     match l with [] => True | y :: l' => owns pl ru un V h (R j) y (spare_at h v j) /\ each (S j) l' end) i l <->
  forall j y, nth_error l j = Some y -> owns pl ru un V h (R (i + j)%nat) y (spare_at h v (i + j)).
Proof.
  induction l as [|y l IH]; intros i; split; intros H.
  - intros [|j] x; discriminate.
  - exact I.
  - destruct H as [H1 H2]. rewrite IH in H2. intros [|j] x; cbn [nth_error].
    + intros [= <-]. now rewrite Nat.add_0_r.
    + intros E. specialize (H2 j x E). now rewrite <- plus_n_Sm.
  - split; [specialize (H 0%nat y eq_refl); now rewrite Nat.add_0_r in H|]. rewrite IH. intros j x E.
    specialize (H (S j) x E). now rewrite <- plus_n_Sm in H.
Qed.
Lemma all_left (h : list obj) P a c k hs hl : forall i,
  (fix left (i : nat) (hl : list (list val)) {struct hl} : Prop :=
     match hl with
     | [] => True
     | l :: hl' =>
         (fix each (j : nat) (l : list val) {struct l} : Prop :=
            match l with
            | [] => True
            | y :: l' => owns pl ru un V h (part (part P a c (S i)) a k (S j)) y (spare_at h (nth i hs HNil) j) /\ each (S j) l'
            end) 0%nat l /\ left (S i) hl'
     end) i hl <->
  forall n l j y, nth_error hl n = Some l -> nth_error l j = Some y ->
    owns pl ru un V h (part (part P a c (S (i + n))) a k (S j)) y (spare_at h (nth (i + n) hs HNil) j).
Proof.
  induction hl as [|l0 hl IH]; intros i; split; intros H.
  - intros [|n] l j y; discriminate.
  - exact I.
  - destruct H as [H1 H2]. rewrite IH in H2. pose proof (proj1 (all_each h (fun j => part (part P a c (S i)) a k (S j)) (nth i hs HNil) l0 0) H1) as H1'. clear H1.
    intros [|n] l j y; cbn [nth_error].
    + intros [= <-] E. rewrite Nat.add_0_r. exact (H1' j y E).
    + intros E E1. specialize (H2 n l j y E E1). now rewrite <- plus_n_Sm.
  - split.
    + apply (all_each h (fun j => part (part P a c (S i)) a k (S j)) (nth i hs HNil) l0 0). intros j y E.
      specialize (H 0%nat l0 j y eq_refl E). now rewrite Nat.add_0_r in H.
    + rewrite IH. intros n l j y E E1. specialize (H (S n) l j y E E1). now rewrite <- plus_n_Sm in H.
Qed.
Definition entry_at h P a c i (t : val * val) (e : hval * hval) : Prop :=
  owns_key V h (fst t) (fst e) /\ owns pl ru un V h (part P a c i) (snd t) (snd e).
Lemma all_entries (h : list obj) P a c l : forall i es,
  (fix all (i : nat) (l : list (val * val)) (es : list (hval * hval)) {struct l} : Prop :=
     match l, es with
     | [], [] => True
     | (k, x) :: l', (e, y) :: es' => owns_key V h k e /\ owns pl ru un V h (part P a c i) x y /\ all (S i) l' es'
     | _, _ => False
     end) i l es <->
  length es = length l /\ forall j t e, nth_error l j = Some t -> nth_error es j = Some e -> entry_at h P a c (i + j) t e.
Proof.
  induction l as [|[k x] l IH]; intros i [|[e y] es]; split; intros H; try (now destruct H); try discriminate (proj1 H).
  - split; [reflexivity|]. intros [|j] ? ?; discriminate.
  - destruct H as (H1 & H2 & H3). rewrite IH in H3. destruct H3 as [L H3]. split; [cbn; lia|].
    intros [|j] t e'; cbn [nth_error].
    + intros [= <-] [= <-]. rewrite Nat.add_0_r. now split.
    + intros E1 E2. specialize (H3 j t e' E1 E2). now rewrite <- plus_n_Sm.
  - destruct H as [L H]. pose proof (H 0%nat (k, x) (e, y) eq_refl eq_refl) as [K1 K2]. rewrite Nat.add_0_r in K2.
    split; [exact K1|]. split; [exact K2|]. rewrite IH. split; [cbn in L; lia|]. intros j t e' E1 E2.
    specialize (H (S j) t e' E1 E2). now rewrite <- plus_n_Sm in H.
Qed.

Lemma own_list h P l v : own h P (VList l) v <-> exists a off cap es c, v = HSlice a off (length l) cap /\ P a /\ nth_error h a = Some (OArr es) /\
  (length l <= cap)%nat /\ (off + cap <= length es)%nat /\
  forall j x, nth_error l j = Some x -> own h (part P a c j) x (nth (off + j) es HNil).
Proof.
  split; intros (a & off & cap & es & c & E & Pa & N & L & C & F); exists a, off, cap, es, c;
    (do 5 (split; [assumption|]); apply (all_list h P a c off es l 0); exact F).
Qed.
Lemma own_map h P l v : own h P (VMap l) v <-> exists a es c, v = HMap a /\ P a /\ nth_error h a = Some (OMap es) /\
  length es = length l /\ forall j t e, nth_error l j = Some t -> nth_error es j = Some e -> entry_at h P a c j t e.
Proof.
  split; intros (a & es & c & E & Pa & N & F); exists a, es, c;
    (do 3 (split; [assumption|]); apply (all_entries h P a c l 0); exact F).
Qed.
Definition own_unk h (P : nat -> Prop) (unk : list Z) (u : hval) : Prop := (u = HNil /\ unk = []) \/ owns_bytes h P unk u.
Lemma own_msg_k h P ss unk hid v : own h P (VMsg ss unk hid) v <-> (ru = false -> hid = []) /\ exists a hs u c k, v = HPtr a /\ P a /\ nth_error h a = Some (OMsg hs u) /\
  own_unk h (part P a c 0) unk u /\ length hs = length ss /\ (length hid <= length ss)%nat /\
  (pl = true -> forall i j b, (length (nth i hid []) <= j)%nat -> spare_at h (nth i hs HNil) j <> HPtr b) /\
  (forall j x, nth_error ss j = Some x -> own h (part (part P a c (S j)) a k 0) x (nth j hs HNil)) /\
  (forall i l j y, nth_error hid i = Some l -> nth_error l j = Some y -> own h (part (part P a c (S i)) a k (S j)) y (spare_at h (nth i hs HNil) j)).
Proof.
  split; intros (H & a & hs & u & c & k & E & Pa & N & U & L & L' & C & F & G); (split; [assumption|]); exists a, hs, u, c, k;
    (do 7 (split; [assumption|])); (split; [apply (all_slots h P a c k hs ss 0); exact F|apply (all_left h P a c k hs hid 0); exact G]).
Qed.
(** A member of a message with what waits in its spare capacity. *)
Definition clean h (x : hval) (n : nat) : Prop := pl = true -> forall j b, (n <= j)%nat -> spare_at h x j <> HPtr b.
Definition own_slot h (Q : nat -> Prop) (t : val) (hl : list val) (x : hval) : Prop :=
  exists k : nat -> nat, own h (fun b => Q b /\ k b = 0%nat) t x /\
    (forall j y, nth_error hl j = Some y -> own h (fun b => Q b /\ k b = S j) y (spare_at h x j)) /\ clean h x (length hl).

(** A tree stays as long as its objects do. *)
Section Keep.
Variables (h h' : list obj).
Hypothesis HV : forall a, V a -> nth_error h' a = nth_error h a.
Lemma string_keep s v : reads_string V h s v -> reads_string V h' s v.
Proof. destruct v; cbn; auto. intros (Va & b & N & S). split; auto. exists b. rewrite HV by auto. auto. Qed.
Lemma key_keep k v : owns_key V h k v -> owns_key V h' k v.
Proof. destruct k; cbn [owns_key]; auto. apply string_keep. Qed.
Lemma bytes_keep (P P' : nat -> Prop) s v : (forall a, P a -> P' a /\ nth_error h' a = nth_error h a) -> owns_bytes h P s v -> owns_bytes h' P' s v.
Proof. intros HP. destruct v; cbn; auto. intros (Pa & L & b & N & S). destruct (HP _ Pa) as [Pa' E]. split; auto. split; auto. exists b. rewrite E. auto. Qed.
Lemma alias_keep s v : reads_bytes V h s v -> reads_bytes V h' s v.
Proof. destruct v; cbn; auto. intros (Va & b & N & S). split; auto. exists b. rewrite HV by auto. auto. Qed.
Lemma spare_keep (P P' : nat -> Prop) t v j : (forall a, P a -> P' a /\ nth_error h' a = nth_error h a) -> own h P t v -> spare_at h' v j = spare_at h v j.
Proof.
  intros HP R. destruct v as [| | | | |a off len cap|]; try reflexivity. cbn [spare_at].
  assert (nth_error h' a = nth_error h a) as ->; [|reflexivity].
  destruct t; cbn [owns] in R; try discriminate R; try contradiction.
  - destruct R as [(Pa & _)|(_ & Va & _)]; [now apply HP|now apply HV].
  - destruct R as (? & ? & E & _). discriminate E.
  - destruct R as (? & ? & ? & ? & ? & E & Pa & _). injection E as Ea _ _ _. subst. now apply HP.
  - destruct R as (? & ? & ? & E & _). discriminate E.
  - destruct R as (? & ? & E & _). discriminate E.
  - destruct R as (_ & ? & ? & ? & ? & ? & E & _). discriminate E.
Qed.
Lemma own_keep t : forall (P P' : nat -> Prop) v, (forall a, P a -> P' a /\ nth_error h' a = nth_error h a) -> own h P t v -> own h' P' t v.
Proof.
  induction t using val_full_ind; intros P P' v HP R; auto.
  - cbn [owns] in *. now apply string_keep.
  - cbn [owns] in *. destruct R as [R|[Un R]]; [left; eapply bytes_keep; eauto|right; split; [assumption|now apply alias_keep]].
  - cbn [owns] in *. destruct R as (a & y & E & Pa & N & R). destruct (HP _ Pa) as [Pa' En]. exists a, y. rewrite En. repeat (split; auto).
    eapply IHt; [|exact R]. cbv beta. intros b [Pb Nb]. destruct (HP _ Pb). auto.
  - rewrite own_list in *. destruct R as (a & off & cap & es & c & E & Pa & N & L & C & F). destruct (HP _ Pa) as [Pa' En].
    exists a, off, cap, es, c. rewrite En. do 5 (split; [assumption|]). intros j x Ex.
    eapply H; [eapply nth_error_In; eauto| |apply F; eassumption]. intros b (Pb & Nb & Cb). destruct (HP _ Pb). repeat split; auto.
  - rewrite own_map in *. destruct R as (a & es & c & E & Pa & N & L & F). destruct (HP _ Pa) as [Pa' En].
    exists a, es, c. rewrite En. do 4 (split; [assumption|]). intros j t e E1 E2. destruct (F j t e E1 E2) as [F1 F2].
    split; [now apply key_keep|]. eapply (H t (nth_error_In _ _ E1)); [|exact F2]. intros b (Pb & Nb & Cb). destruct (HP _ Pb). repeat split; auto.
  - cbn [owns] in *. destruct R as (a & y & E & Pa & N & R). destruct (HP _ Pa) as [Pa' En]. exists a, y. rewrite En. repeat (split; auto).
    eapply IHt; [|exact R]. cbv beta. intros b [Pb Nb]. destruct (HP _ Pb). auto.
  - rewrite own_msg_k in *. destruct R as (Hh & a & hs & w & c & k & E & Pa & N & U & L & L' & C & F & G). destruct (HP _ Pa) as [Pa' En].
    assert (forall i b, part P a c i b -> part P' a c i b /\ nth_error h' b = nth_error h b) as HQ.
    { intros i b (Pb & Nb & Cb). destruct (HP _ Pb). repeat split; auto. }
    assert (forall i n b, part (part P a c i) a k n b -> part (part P' a c i) a k n b /\ nth_error h' b = nth_error h b) as HR.
    { intros i n b (Pb & Nb & Cb). destruct (HQ _ _ Pb) as [A B]. split; [split; [exact A|now split]|exact B]. }
    assert (forall i j, spare_at h' (nth i hs HNil) j = spare_at h (nth i hs HNil) j) as Sp.
    { intros i j. destruct (Nat.lt_ge_cases i (length l)) as [Li|Li]; [|rewrite (nth_overflow hs) by lia; reflexivity].
      eapply spare_keep; [|apply (F i (nth i l VNil)); now apply nth_error_nth']. apply HR. }
    split; [assumption|]. exists a, hs, w, c, k. rewrite En. do 3 (split; [assumption|]).
    split; [destruct U as [U|U]; [now left|right; eapply bytes_keep; [|exact U]; apply HQ]|]. do 2 (split; [assumption|]).
    split; [intros Pl i j b Hj; rewrite Sp; now apply C|]. split.
    + intros j x Ex. eapply H; [eapply nth_error_In; eauto|apply HR|apply F; eassumption].
    + intros i r j y Ei Ej. rewrite Sp. eapply H0; [eapply nth_error_In; exact Ei|eapply nth_error_In; exact Ej|apply HR|eapply G; eassumption].
Qed.
Lemma own_slot_keep (P P' : nat -> Prop) t hl v : (forall a, P a -> P' a /\ nth_error h' a = nth_error h a) -> own_slot h P t hl v -> own_slot h' P' t hl v.
Proof.
  intros HP (k & O & F & C). exists k.
  assert (forall n b, P b /\ k b = n -> (P' b /\ k b = n) /\ nth_error h' b = nth_error h b) as HQ by (intros n b [Pb Kb]; destruct (HP _ Pb); auto).
  assert (forall j, spare_at h' v j = spare_at h v j) as Sp.
  { intros j. eapply spare_keep; [|exact O]. intros b Hb. apply (HQ _ _ Hb). }
  split; [eapply own_keep; [|exact O]; apply HQ|]. split.
  - intros j y Ej. rewrite Sp. eapply own_keep; [|apply F; exact Ej]. apply HQ.
  - intros Pl j b Hj. rewrite Sp. now apply C.
Qed.
End Keep.
Lemma own_mono h (P P' : nat -> Prop) t v : (forall a, P a -> P' a) -> own h P t v -> own h P' t v.
Proof. intros H. apply own_keep; auto. Qed.
Lemma own_slot_mono h (P P' : nat -> Prop) t hl v : (forall a, P a -> P' a) -> own_slot h P t hl v -> own_slot h P' t hl v.
Proof. intros H. apply own_slot_keep; auto. Qed.
Lemma own_slot_own h P t hl v : own_slot h P t hl v -> own h P t v.
Proof. intros (k & O & _). eapply own_mono; [|exact O]. cbv beta. tauto. Qed.
Lemma own_slot_nil h P t v : own_slot h P t [] v <-> own h P t v /\ clean h v 0.
Proof.
  split.
  - intros O. split; [eapply own_slot_own; eassumption|]. destruct O as (k & _ & _ & C). exact C.
  - intros [O C]. exists (fun _ => 0%nat). split; [eapply own_mono; [|exact O]; cbv beta; auto|]. split; [intros [|j] y; discriminate|exact C].
Qed.
Lemma own_hnil h P t : own h P t HNil -> t = VNil.
Proof.
  destruct t; cbn [owns reads_string]; auto; try discriminate; try contradiction.
  - intros [H|[_ H]]; contradiction H.
  - intros (? & ? & E & _); discriminate E.
  - intros (? & ? & ? & ? & ? & E & _); discriminate E.
  - intros (? & ? & ? & E & _); discriminate E.
  - intros (? & ? & E & _); discriminate E.
  - intros (_ & ? & ? & ? & ? & ? & E & _); discriminate E.
Qed.

Lemma choose {A} (d : A) (R : nat -> A -> Prop) n : (forall i, (i < n)%nat -> exists x, R i x) -> exists f, forall i, (i < n)%nat -> R i (f i).
Proof.
  induction n as [|n IH]; intros H; [exists (fun _ => d); lia|]. destruct IH as [f Hf]; [intros i Hi; apply H; lia|].
  destruct (H n) as [x Hx]; [lia|]. exists (fun i => if Nat.eqb i n then x else f i). intros i Hi. destruct (Nat.eqb_spec i n) as [->|Ni]; [assumption|]. apply Hf. lia.
Qed.
Lemma own_msg h P ss unk hid v : own h P (VMsg ss unk hid) v <-> (ru = false -> hid = []) /\ exists a hs u c, v = HPtr a /\ P a /\ nth_error h a = Some (OMsg hs u) /\
  own_unk h (part P a c 0) unk u /\ length hs = length ss /\ (length hid <= length ss)%nat /\
  forall i, (i < length ss)%nat -> own_slot h (part P a c (S i)) (slot ss i) (nth i hid []) (nth i hs HNil).
Proof.
  rewrite own_msg_k. split.
  - intros (Hh & a & hs & u & c & k & E & Pa & N & U & L & L' & C & F & G). split; [assumption|]. exists a, hs, u, c. do 6 (split; [assumption|]).
    intros i Li. exists k. split; [|split].
    + eapply own_mono; [|apply F; unfold slot; now apply nth_error_nth']. intros b (Pb & _ & Kb). auto.
    + intros j y Ej. destruct (nth_error hid i) as [l|] eqn:Ei.
      * erewrite (nth_error_nth hid i [] Ei) in Ej. eapply own_mono; [|eapply G; eassumption]. intros b (Pb & _ & Kb). auto.
      * apply nth_error_None in Ei. rewrite nth_overflow in Ej by assumption. destruct j; discriminate.
    + intros Pl j b. now apply C.
  - intros (Hh & a & hs & u & c & E & Pa & N & U & L & L' & F). split; [assumption|].
    destruct (choose (fun _ => 0%nat) _ (length ss) F) as [K HK]. clear F.
    assert (forall i n b, part P a c (S i) b /\ K i b = n -> part (part P a c (S i)) a (fun b => K (pred (c b)) b) n b) as HP.
    { intros i n b [Pb Kb]. split; [assumption|]. destruct Pb as (_ & Nb & Cb). split; [assumption|]. cbv beta. now rewrite Cb. }
    exists a, hs, u, c, (fun b => K (pred (c b)) b). do 6 (split; [assumption|]). split; [|split].
    + intros Pl i j b Hj. destruct (Nat.lt_ge_cases i (length ss)) as [Li|Li]; [|rewrite (nth_overflow hs) by lia; discriminate].
      destruct (HK i Li) as (_ & _ & C). now apply C.
    + intros j x Ex. assert (j < length ss)%nat as Lj by (apply nth_error_Some; congruence). destruct (HK j Lj) as (O & _).
      unfold slot in O. erewrite (nth_error_nth ss j VNil Ex) in O. eapply own_mono; [|exact O]. apply HP.
    + intros i l j y Ei Ej. assert (i < length hid)%nat as Li by (apply nth_error_Some; congruence).
      destruct (HK i ltac:(lia)) as (_ & O & _). erewrite (nth_error_nth hid i [] Ei) in O. eapply own_mono; [|apply O; exact Ej]. apply HP.
Qed.

Lemma list_set_same {A} (l : list A) i d : (i < length l)%nat -> Unmarshal.list_set l i (nth i l d) = l.
Proof. revert i. induction l as [|x l IH]; intros [|i] H; cbn in *; try lia; auto. rewrite IH by lia. reflexivity. Qed.
Lemma nth_error_set_eq {A} (l : list A) i x : (i < length l)%nat -> nth_error (Unmarshal.list_set l i x) i = Some x.
Proof. revert i. induction l as [|y l IH]; intros [|i] H; cbn in *; try lia; auto. apply IH. lia. Qed.
Lemma nth_error_set_neq {A} (l : list A) i j x : i <> j -> nth_error (Unmarshal.list_set l i x) j = nth_error l j.
Proof. revert i j. induction l as [|y l IH]; intros [|i] [|j] H; cbn in *; try lia; auto. Qed.

(** Objects may be added; [Nw] tells which. *)
Definition plus (P : nat -> Prop) (Nw : nat -> bool) : nat -> Prop := fun b => P b \/ Nw b = true.
Definition recolor (Nw : nat -> bool) (i : nat) (c : nat -> nat) : nat -> nat := fun b => if Nw b then i else c b.
Lemma new_color (P : nat -> Prop) (Nw : nat -> bool) a c i b : (forall b, Nw b = true -> ~ P b) -> P a -> Nw b = true -> part (plus P Nw) a (recolor Nw i c) i b.
Proof. intros D Pa Nb. split; [now right|]. split; [intros ->; exact (D _ Nb Pa)|]. unfold recolor. now rewrite Nb. Qed.
Lemma old_color (P : nat -> Prop) (Nw : nat -> bool) a c i j b : (forall b, Nw b = true -> ~ P b) -> part P a c i b -> part (plus P Nw) a (recolor Nw j c) i b.
Proof.
  intros D (Pb & Nb & Cb). split; [now left|]. split; [assumption|]. unfold recolor. destruct (Nw b) eqn:E; [now apply D in E|assumption].
Qed.

(** One member of a message, and what may happen to it. *)
Lemma slot_focus h P ss unk hid v i : own h P (VMsg ss unk hid) v -> (i < length ss)%nat ->
  exists a hs u (Q : nat -> Prop), v = HPtr a /\ P a /\ nth_error h a = Some (OMsg hs u) /\ (i < length hs)%nat /\ (ru = false -> hid = []) /\ (length hid <= length ss)%nat /\
    (forall b, Q b -> P b /\ b <> a) /\ own_slot h Q (slot ss i) (nth i hid []) (nth i hs HNil) /\
    forall h' (Nw : nat -> bool) t' hid' x', nth_error h' a = Some (OMsg (Unmarshal.list_set hs i x') u) -> (forall b, Nw b = true -> ~ P b) ->
      (forall b, P b -> b <> a -> ~ Q b -> nth_error h' b = nth_error h b) -> (forall b, V b -> nth_error h' b = nth_error h b) ->
      (ru = false -> hid' = []) -> (length hid' <= length ss)%nat -> (forall j, j <> i -> nth j hid' [] = nth j hid []) ->
      own_slot h' (plus Q Nw) t' (nth i hid' []) x' ->
      own h' (plus P Nw) (VMsg (Unmarshal.list_set ss i t') unk hid') v.
Proof.
  intros O Li. apply own_msg in O as (Hh & a & hs & u & c & -> & Pa & N & U & L & L' & F).
  exists a, hs, u, (part P a c (S i)). do 3 (split; [auto|]). split; [lia|]. do 2 (split; [assumption|]). split; [intros b (? & ? & ?); auto|].
  split; [now apply F|].
  intros h' Nw t' hid' x' N' D Fr HV Hh' Lh' Hi O'. apply own_msg. split; [assumption|].
  exists a, (Unmarshal.list_set hs i x'), u, (recolor Nw (S i) c).
  assert (forall j b, j <> S i -> part P a c j b -> part (plus P Nw) a (recolor Nw (S i) c) j b /\ nth_error h' b = nth_error h b) as K.
  { intros j b Nj Hb. split; [now apply old_color|]. destruct Hb as (Pb & Nb & Cb). apply Fr; auto. intros (_ & _ & ?). congruence. }
  split; [reflexivity|]. split; [now left|]. split; [assumption|]. split.
  { destruct U as [U|U]; [now left|right]. eapply bytes_keep; [|exact U]. intros b. apply K. lia. }
  rewrite !list_set_length. split; [lia|]. split; [assumption|]. intros j Lj. unfold slot. destruct (Nat.eq_dec i j) as [<-|Nj].
  - rewrite !nth_list_set_eq by lia. eapply own_slot_mono; [|exact O']. intros b [Hb|Hb]; [now apply old_color|now apply new_color].
  - rewrite !nth_list_set_neq by assumption. rewrite Hi by congruence.
    eapply own_slot_keep; [exact HV| |apply F; assumption]. intros b. apply K. lia.
Qed.

(** The unknown fields. *)
Lemma unk_focus h P ss unk hid v : own h P (VMsg ss unk hid) v ->
  exists a hs u (Q : nat -> Prop), v = HPtr a /\ P a /\ nth_error h a = Some (OMsg hs u) /\
    (forall b, Q b -> P b /\ b <> a) /\ own_unk h Q unk u /\
    forall h' (Nw : nat -> bool) unk' u', nth_error h' a = Some (OMsg hs u') -> (forall b, Nw b = true -> ~ P b) ->
      (forall b, P b -> b <> a -> ~ Q b -> nth_error h' b = nth_error h b) -> (forall b, V b -> nth_error h' b = nth_error h b) ->
      own_unk h' (plus Q Nw) unk' u' ->
      own h' (plus P Nw) (VMsg ss unk' hid) v.
Proof.
  intros O. apply own_msg in O as (Hh & a & hs & u & c & -> & Pa & N & U & L & L' & F).
  exists a, hs, u, (part P a c 0). do 3 (split; [auto|]). split; [intros b (? & ? & ?); auto|]. split; [assumption|].
  intros h' Nw unk' u' N' D Fr HV O'. apply own_msg. split; [assumption|].
  exists a, hs, u', (recolor Nw 0 c).
  split; [reflexivity|]. split; [now left|]. split; [assumption|]. split.
  { destruct O' as [U'|U']; [now left|right]. eapply (bytes_keep h' h'); [|exact U']. intros b [Hb|Hb]; (split; [|reflexivity]); [now apply old_color|now apply new_color]. }
  split; [assumption|]. split; [assumption|]. intros j Lj.
  eapply own_slot_keep; [exact HV| |apply F; assumption]. intros b Hb. split; [now apply old_color|]. destruct Hb as (Pb & Nb & Cb).
  apply Fr; auto. intros (_ & _ & ?). congruence.
Qed.

(** An element of a list. *)
Lemma elem_focus h P l hl v i : own_slot h P (VList l) hl v -> (i < length l)%nat ->
  exists a off cap es (Q : nat -> Prop), v = HSlice a off (length l) cap /\ P a /\ nth_error h a = Some (OArr es) /\
    (length l <= cap)%nat /\ (off + cap <= length es)%nat /\
    (forall b, Q b -> P b /\ b <> a) /\ own h Q (nth i l VNil) (nth (off + i) es HNil) /\
    forall h' (Nw : nat -> bool) t', nth_error h' a = Some (OArr es) -> (forall b, Nw b = true -> ~ P b) ->
      (forall b, P b -> b <> a -> ~ Q b -> nth_error h' b = nth_error h b) -> (forall b, V b -> nth_error h' b = nth_error h b) ->
      own h' (plus Q Nw) t' (nth (off + i) es HNil) ->
      own_slot h' (plus P Nw) (VList (Unmarshal.list_set l i t')) hl v.
Proof.
  intros (k & O & Fh & Cl) Li. apply own_list in O as (a & off & cap & es & c & -> & [Pa Ka] & N & L & C & F).
  exists a, off, cap, es, (part (fun b => P b /\ k b = 0%nat) a c i). do 5 (split; [auto|]). split; [intros b ((? & ?) & ? & ?); auto|].
  split; [apply F; now apply nth_error_nth'|].
  intros h' Nw t' N' D Fr HV O'. exists (recolor Nw 0 k).
  assert (forall j, spare_at h' (HSlice a off (length l) cap) j = spare_at h (HSlice a off (length l) cap) j) as Sp by (intros j; cbn [spare_at]; now rewrite N, N').
  assert (forall b, P b -> Nw b = false) as D' by (intros b Pb; destruct (Nw b) eqn:E; [now apply D in E|reflexivity]).
  split; [|split].
  - apply own_list.
    exists a, off, cap, es, (recolor Nw i c).
    rewrite list_set_length. split; [reflexivity|]. split; [split; [now left|]; unfold recolor; now rewrite D'|]. do 3 (split; [assumption|]).
    intros j x Ex. destruct (Nat.eq_dec i j) as [<-|Nj].
    + rewrite nth_error_set_eq in Ex by assumption. injection Ex as <-.
      eapply own_mono; [|exact O']. intros b [((Pb & Kb) & Nb & Cb)|Hb]; unfold recolor; repeat split; cbv beta.
      * now left.
      * now rewrite D'.
      * assumption.
      * now rewrite D'.
      * now right.
      * now rewrite Hb.
      * intros ->. now apply D in Hb.
      * now rewrite Hb.
    + rewrite nth_error_set_neq in Ex by assumption.
      eapply own_keep; [exact HV| |apply F; eassumption]. intros b ((Pb & Kb) & Nb & Cb). unfold recolor. split.
      * split; [split; [now left|]|split; [assumption|]]; cbv beta; now rewrite D'.
      * apply Fr; auto. intros (_ & _ & ?). congruence.
  - intros j y Ej. rewrite Sp. eapply own_keep; [exact HV| |apply Fh; exact Ej]. cbv beta. intros b [Pb Kb]. split.
    + split; [now left|]. unfold recolor. now rewrite D'.
    + apply Fr; [assumption| |]; [intros ->; congruence|]. intros ((_ & ?) & _). congruence.
  - intros Pl j b Hj. rewrite Sp. now apply Cl.
Qed.

(** Extending a list.  [Q]: the objects of the list; the new element consists of the objects
    [Nw], or it is the one that waits in the spare capacity. *)
Lemma grow_in_place h h' (Q : nat -> Prop) (Nw : nat -> bool) l hl a off cap es t x : own_slot h Q (VList l) hl (HSlice a off (length l) cap) -> (forall b, Nw b = true -> ~ Q b) ->
  (length l < cap)%nat -> nth_error h a = Some (OArr es) -> nth_error h' a = Some (OArr (Unmarshal.list_set es (off + length l) x)) ->
  (forall b, Q b \/ Nw b = true \/ V b -> b <> a -> nth_error h' b = nth_error h b) -> ~ V a ->
  own h (fun b => Nw b = true) t x \/ nth_error hl 0 = Some t /\ x = spare_at h (HSlice a off (length l) cap) 0 ->
  own_slot h' (plus Q Nw) (VList (l ++ [t])) (tl hl) (HSlice a off (S (length l)) cap).
Proof.
  intros (k & O & Fh & Cl) D Lt Ne Ne' Fr Va Ox. apply own_list in O as (a0 & off0 & cap0 & es0 & c & E & [Qa Ka] & N & L & C & F).
  injection E as <- <- <-. rewrite Ne in N. injection N as <-.
  assert (forall b, V b -> nth_error h' b = nth_error h b) as HV by (intros b Vb; apply Fr; auto; congruence).
  assert (forall b, Q b -> Nw b = false) as D' by (intros b Pb; destruct (Nw b) eqn:E; [now apply D in E|reflexivity]).
  assert (forall j, spare_at h' (HSlice a off (S (length l)) cap) j = spare_at h (HSlice a off (length l) cap) (S j)) as Sp.
  { intros j. cbn [spare_at]. rewrite Ne, Ne'. replace (S (length l) + j)%nat with (length l + S j)%nat by lia. destruct (Nat.ltb _ _) eqn:Lj; [|reflexivity].
    apply Nat.ltb_lt in Lj. rewrite nth_list_set_neq by lia. f_equal. lia. }
  assert (forall j, nth_error (tl hl) j = nth_error hl (S j)) as Tl by (intros j; destruct hl; [now destruct j|reflexivity]).
  exists (fun b => if Nw b then 0%nat else pred (k b)). split; [|split].
  - apply own_list. exists a, off, cap, (Unmarshal.list_set es (off + length l) x), (fun b => if Nw b || Nat.eqb (k b) 1 then length l else c b).
    rewrite app_length, list_set_length. cbn [length]. rewrite Nat.add_1_r. split; [reflexivity|].
    split; [split; [now left|]; now rewrite D', Ka|]. split; [assumption|]. split; [lia|]. split; [assumption|].
    intros j y Ey. destruct (Nat.lt_ge_cases j (length l)) as [Lj|Lj].
    + rewrite nth_error_app1 in Ey by assumption. rewrite nth_list_set_neq by lia.
      eapply own_keep; [exact HV| |apply F; eassumption]. intros b ((Qb & Kb) & Nb & Cb). split; [|apply Fr; auto].
      split; [split; [now left|]; now rewrite D', Kb|]. split; [assumption|]. cbv beta. now rewrite D', Kb.
    + rewrite nth_error_app2 in Ey by assumption. destruct (j - length l)%nat as [|[|]] eqn:Ej; try discriminate. injection Ey as <-.
      assert (j = length l) as -> by lia. rewrite nth_list_set_eq by lia. destruct Ox as [Ox|[Eh ->]].
      * eapply own_keep; [exact HV| |exact Ox]. cbv beta. intros b Hb. assert (b <> a) as Nb by (intros ->; now apply D in Hb). split; [|apply Fr; auto].
        split; [split; [now right|]; now rewrite Hb|]. split; [assumption|]. cbv beta. now rewrite Hb.
      * eapply own_keep; [exact HV| |apply Fh; exact Eh]. cbv beta. intros b [Qb Kb]. assert (b <> a) as Nb by (intros ->; congruence). split; [|apply Fr; auto].
        split; [split; [now left|]; now rewrite D', Kb|]. split; [assumption|]. cbv beta. now rewrite D', Kb.
  - intros j y Ey. rewrite Tl in Ey. rewrite Sp. eapply own_keep; [exact HV| |apply Fh; exact Ey]. cbv beta. intros b [Qb Kb].
    assert (b <> a) as Nb by (intros ->; congruence). split; [|apply Fr; auto]. split; [now left|]. now rewrite D', Kb.
  - intros Pl j b Hj. rewrite Sp. apply Cl; [assumption|]. destruct hl; cbn in *; lia.
Qed.

Lemma grow_copy h (Q : nat -> Prop) (Nw : nat -> bool) l hl old t x es n :
  (old = HNil /\ l = [] /\ es = [] /\ own_slot h Q VNil hl old \/
   own_slot h Q (VList l) hl old /\ exists a off es0, old = HSlice a off (length l) (length l) /\ nth_error h a = Some (OArr es0) /\ es = firstn (length l) (skipn off es0)) ->
  length es = length l -> (forall b, Nw b = true -> (b < length h)%nat /\ ~ Q b) -> (forall b, Q b -> (b < length h)%nat) -> (forall b, V b -> (b < length h)%nat) ->
  own h (fun b => Nw b = true) t x ->
  own_slot (h ++ [OArr (es ++ x :: repeat HNil n)]) (plus Q (fun b => Nw b || Nat.eqb b (length h))) (VList (l ++ [t])) (tl hl) (HSlice (length h) 0 (S (length l)) (S (length l) + n)).
Proof.
  intros O Les D BQ BV Ox.
  assert (forall b, Q b -> Nw b = false) as D' by (intros b Pb; destruct (Nw b) eqn:E; [now apply D in E|reflexivity]).
  assert ((forall j, spare_at h old j = HNil) /\ own_slot h Q (match old with HNil => VNil | _ => VList l end) hl old) as [Sn Os].
  { destruct O as [(-> & _ & _ & O)|(O & a & off & es0 & -> & _)]; (split; [|assumption]); [reflexivity|]. intros j. cbn [spare_at].
    replace (Nat.ltb _ _) with false by (symmetry; apply Nat.ltb_ge; lia). reflexivity. }
  assert (forall j y, nth_error hl j = Some y -> y = VNil) as Hn.
  { destruct Os as (k & _ & Fh & _). intros j y Ej. specialize (Fh j y Ej). rewrite Sn in Fh. eapply own_hnil; eassumption. }
  assert (exists c, forall j y, nth_error l j = Some y -> own h (fun b => Q b /\ c b = j) y (nth j es HNil)) as (c & F).
  { destruct O as [(_ & -> & _)|(O & a & off & es0 & -> & N & ->)].
    - exists (fun _ => 0%nat). intros [|j] y; discriminate.
    - apply own_slot_own, own_list in O as (a0 & off0 & cap0 & es1 & c & E & Qa & N1 & L & C & F). injection E as <- <- <-. rewrite N in N1. injection N1 as <-.
      exists c. intros j y Ey. assert (j < length l)%nat by (apply nth_error_Some; congruence).
      replace (nth j (firstn (length l) (skipn off es0)) HNil) with (nth (off + j) es0 HNil).
      + eapply own_mono; [|apply F; eassumption]. intros b (? & _ & ?). auto.
      + rewrite <- (firstn_skipn off es0) at 1. rewrite app_nth2; rewrite firstn_length_le by lia; [|lia].
        replace (off + j - off)%nat with j by lia.
        rewrite <- (firstn_skipn (length l) (skipn off es0)) at 1. rewrite app_nth1; [reflexivity|]. lia. }
  clear O Os. set (h' := h ++ [OArr (es ++ x :: repeat HNil n)]).
  assert (forall b, (b < length h)%nat -> nth_error h' b = nth_error h b) as Fr by (intros b Lb; now apply nth_error_app1).
  assert (forall b, V b -> nth_error h' b = nth_error h b) as HV by (intros b Vb; apply Fr, BV; assumption).
  assert (nth_error h' (length h) = Some (OArr (es ++ x :: repeat HNil n))) as Nh by (unfold h'; rewrite nth_error_app2, Nat.sub_diag by lia; reflexivity).
  assert (forall j, spare_at h' (HSlice (length h) 0 (S (length l)) (S (length l) + n)) j = HNil) as Sp.
  { intros j. cbn [spare_at]. destruct (Nat.ltb _ _); [|reflexivity]. rewrite Nh. cbn [Nat.add]. rewrite app_nth2 by lia.
    destruct (S (length l + j) - length es)%nat as [|i] eqn:Ei; [lia|]. cbn. apply nth_repeat. }
  exists (fun _ => 0%nat). split; [|split].
  - apply own_list. exists (length h), 0%nat, (S (length l) + n)%nat, (es ++ x :: repeat HNil n), (recolor Nw (length l) c).
    rewrite !app_length. cbn [length]. rewrite repeat_length, Nat.add_1_r. split; [reflexivity|].
    split; [split; [right; rewrite Nat.eqb_refl; apply orb_true_r|reflexivity]|]. split; [exact Nh|]. split; [lia|]. split; [lia|].
    intros j y Ey. cbn [Nat.add]. destruct (Nat.lt_ge_cases j (length l)) as [Lj|Lj].
    + rewrite nth_error_app1 in Ey by assumption. rewrite app_nth1 by lia.
      eapply own_keep; [exact HV| |apply F; eassumption]. cbv beta. intros b [Qb Cb]. pose proof (BQ b Qb) as Lb. split; [|apply Fr; lia].
      split; [split; [now left|reflexivity]|]. split; [lia|]. unfold recolor. now rewrite D'.
    + rewrite nth_error_app2 in Ey by assumption. destruct (j - length l)%nat as [|[|]] eqn:Ej; try discriminate. injection Ey as <-.
      assert (j = length l) as -> by lia. rewrite app_nth2, Les, Nat.sub_diag by lia. cbn [nth].
      eapply own_keep; [exact HV| |exact Ox]. cbv beta. intros b Hb. destruct (D b Hb) as [Lb _]. split; [|apply Fr; lia].
      split; [split; [right; now rewrite Hb|reflexivity]|]. split; [lia|]. unfold recolor. now rewrite Hb.
  - intros j y Ey. rewrite Sp. assert (nth_error hl (S j) = Some y) as Ey' by (destruct hl; [now destruct j|exact Ey]). rewrite (Hn _ _ Ey'). reflexivity.
  - intros Pl j b _. rewrite Sp. discriminate.
Qed.
End Facts.
