(** The order in which the two marshalers write the fields of a message. *)
From Coq Require Import ZArith List Bool Lia Permutation.
From Verif Require Import Base BaseFacts Schema Value WireSpec Typing.
Import ListNotations.
Open Scope Z_scope.

Lemma insert_perm f l : Permutation (insert_field f l) (f :: l).
Proof.
  induction l as [|g l IH]; cbn; [reflexivity|].
  destruct (f_num f <=? f_num g); [reflexivity|].
  rewrite IH. apply perm_swap.
Qed.
Lemma sort_perm l : Permutation (sort_fields l) l.
Proof.
  induction l as [|f l IH]; cbn; [reflexivity|].
  unfold sort_fields in IH. rewrite insert_perm. now rewrite IH.
Qed.

(** Ascending field numbers. *)
Inductive ascending : list fdesc -> Prop :=
| asc_nil : ascending []
| asc_cons f l : (forall g, In g l -> f_num f <= f_num g) -> ascending l -> ascending (f :: l).

Lemma insert_asc f l : ascending l -> ascending (insert_field f l).
Proof.
  induction l as [|g l IH]; intros H; cbn.
  - constructor; [intros ? []|constructor].
  - inversion H as [|? ? H1 H2]; subst. destruct (f_num f <=? f_num g) eqn:E.
    + constructor; [|assumption]. intros h [->|Hh]; [lia|]. specialize (H1 h Hh). lia.
    + constructor; [|auto]. intros h Hh.
      apply (Permutation_in _ (insert_perm f l)) in Hh. destruct Hh as [->|Hh]; [lia|auto].
Qed.
Lemma sort_asc l : ascending (sort_fields l).
Proof. induction l as [|f l IH]; cbn; [constructor|now apply insert_asc]. Qed.

Lemma filter_asc P l : ascending l -> ascending (filter P l).
Proof.
  induction 1 as [|f l H1 H2 IH]; cbn; [constructor|].
  destruct (P f); [|assumption]. constructor; [|assumption].
  intros g Hg. apply filter_In in Hg as [Hg _]. auto.
Qed.

(** oneof_slots *)
Lemma existsb_slot s seen : existsb (Nat.eqb s) seen = true <-> In s seen.
Proof.
  rewrite existsb_exists. split.
  - intros (x & Hx & E). apply Nat.eqb_eq in E. now subst.
  - intros H. exists s. split; [assumption|]. apply Nat.eqb_refl.
Qed.

Lemma oneof_slots_in l : forall seen s, In s (oneof_slots seen l) <->
  (~ In s seen /\ exists f, In f l /\ is_oneof f = true /\ f_slot f = s).
Proof.
  induction l as [|f l IH]; intros seen s; cbn.
  - split; [tauto|]. intros (_ & f & [] & _).
  - destruct (is_oneof f) eqn:O.
    + destruct (existsb (Nat.eqb (f_slot f)) seen) eqn:E.
      * apply existsb_slot in E. rewrite IH. split.
        -- intros (H & g & Hg & Ho & Hs). split; [assumption|]. exists g. auto.
        -- intros (H & g & [->|Hg] & Ho & Hs); [subst; contradiction|].
           split; [assumption|]. exists g. auto.
      * assert (~ In (f_slot f) seen) as N by (rewrite <- existsb_slot, E; discriminate).
        cbn. rewrite IH. split.
        -- intros [<-|(H & g & Hg & Ho & Hs)].
           ++ split; [assumption|]. exists f. auto.
           ++ cbn in H. split; [tauto|]. exists g. auto.
        -- intros (H & g & [->|Hg] & Ho & Hs); [now left|].
           destruct (Nat.eq_dec (f_slot f) s) as [|D]; [now left|].
           right. split; [cbn; tauto|]. exists g. auto.
    + rewrite IH. split.
      * intros (H & g & Hg & Ho & Hs). split; [assumption|]. exists g. auto.
      * intros (H & g & [->|Hg] & Ho & Hs); [congruence|].
        split; [assumption|]. exists g. auto.
Qed.

Lemma oneof_slots_nodup l : forall seen, NoDup (oneof_slots seen l).
Proof.
  induction l as [|f l IH]; intros seen; cbn; [constructor|].
  destruct (is_oneof f); [|apply IH].
  destruct (existsb (Nat.eqb (f_slot f)) seen); [apply IH|].
  constructor; [|apply IH]. rewrite oneof_slots_in. cbn. tauto.
Qed.

(** Grouping the oneof members by struct member is a permutation. *)
Definition members (s : nat) (l : list fdesc) : list fdesc :=
  filter (fun f => is_oneof f && Nat.eqb (f_slot f) s) l.

Lemma split_filter {A} (P Q R : A -> bool) l :
  (forall x, R x = P x || Q x) -> (forall x, P x = true -> Q x = false) ->
  Permutation (filter P l ++ filter Q l) (filter R l).
Proof.
  intros HR HD. induction l as [|x l IH]; cbn; [reflexivity|].
  rewrite HR. destruct (P x) eqn:EP; cbn.
  - rewrite (HD x EP). now constructor.
  - destruct (Q x); cbn; [|assumption].
    rewrite <- Permutation_middle. now constructor.
Qed.

Lemma members_perm_aux l os : NoDup os ->
  Permutation (flat_map (fun s => members s l) os)
              (filter (fun f => is_oneof f && existsb (Nat.eqb (f_slot f)) os) l).
Proof.
  induction os as [|s os IH]; intros ND; cbn.
  - induction l as [|f l IHl]; cbn; [reflexivity|]. now rewrite andb_false_r.
  - inversion ND as [|? ? N1 N2]; subst. rewrite (IH N2). unfold members.
    apply split_filter.
    + intros f. destruct (is_oneof f); reflexivity.
    + intros f H. apply andb_true_iff in H as [H1 H2]. apply Nat.eqb_eq in H2.
      rewrite H1. cbn. destruct (existsb (Nat.eqb (f_slot f)) os) eqn:E; [|reflexivity].
      apply existsb_slot in E. subst. contradiction.
Qed.

Lemma filter_ext_in' {A} (P Q : A -> bool) l : (forall x, In x l -> P x = Q x) -> filter P l = filter Q l.
Proof. apply filter_ext_in. Qed.

Lemma members_perm l os : NoDup os ->
  (forall f, In f l -> is_oneof f = true -> In (f_slot f) os) ->
  Permutation (flat_map (fun s => members s l) os) (filter is_oneof l).
Proof.
  intros ND H. rewrite members_perm_aux by assumption.
  rewrite (filter_ext_in' _ is_oneof); [reflexivity|].
  intros f Hf. destruct (is_oneof f) eqn:E; [|reflexivity]. cbn.
  apply existsb_slot. auto.
Qed.

Lemma filter_split_perm {A} (P : A -> bool) l :
  Permutation (filter (fun x => negb (P x)) l ++ filter P l) l.
Proof.
  induction l as [|x l IH]; cbn; [reflexivity|]. destruct (P x); cbn.
  - rewrite <- Permutation_middle. now constructor.
  - now constructor.
Qed.

(** marshalto.go:609-611 and 624-640: the strict order; 645-678: the other one. *)
Definition strict_order (sc : schema) (m : nat) : list fdesc :=
  sort_fields (md_fields (md_of sc m)).
Definition oneof_order (fs : list fdesc) : list nat := rev (oneof_slots [] (rev fs)).
Definition fast_order (sc : schema) (m : nat) : list fdesc :=
  let fs := strict_order sc m in
  filter (fun f => negb (is_oneof f)) fs ++ flat_map (fun s => members s fs) (oneof_order fs).
Definition order (sc : schema) (strict : bool) (m : nat) : list fdesc :=
  if strict then strict_order sc m else fast_order sc m.

Lemma oneof_order_spec fs : NoDup (oneof_order fs) /\
  forall f, In f fs -> is_oneof f = true -> In (f_slot f) (oneof_order fs).
Proof.
  unfold oneof_order. split.
  - apply NoDup_rev, oneof_slots_nodup.
  - intros f Hf Ho. rewrite <- in_rev. apply oneof_slots_in. split; [intros []|].
    exists f. rewrite <- in_rev. auto.
Qed.

Lemma fast_perm sc m : Permutation (fast_order sc m) (md_fields (md_of sc m)).
Proof.
  unfold fast_order. destruct (oneof_order_spec (strict_order sc m)) as [H1 H2].
  rewrite members_perm by assumption. rewrite filter_split_perm. apply sort_perm.
Qed.

Lemma order_perm sc strict m : Permutation (order sc strict m) (md_fields (md_of sc m)).
Proof. destruct strict; [apply sort_perm|apply fast_perm]. Qed.

(** Shape of the non-strict order: plain fields in ascending order, then oneof
    members. *)
Lemma fast_shape sc m : exists a b, fast_order sc m = a ++ b /\ ascending a /\
  (forall f, In f a -> is_oneof f = false) /\ (forall f, In f b -> is_oneof f = true).
Proof.
  exists (filter (fun f => negb (is_oneof f)) (strict_order sc m)),
    (flat_map (fun s => members s (strict_order sc m)) (oneof_order (strict_order sc m))).
  split; [reflexivity|]. split; [apply filter_asc, sort_asc|]. split.
  - intros f Hf. apply filter_In in Hf as [_ Hf]. now destruct (is_oneof f).
  - intros f Hf. apply in_flat_map in Hf as (s & _ & Hf). apply filter_In in Hf as [_ Hf].
    now apply andb_true_iff in Hf as [Hf _].
Qed.

Lemma perm_zlen_concat {A} (e : A -> list Z) l l' : Permutation l l' ->
  zlen (concat (map e l)) = zlen (concat (map e l')).
Proof.
  induction 1; cbn [map concat]; rewrite ?zlen_app; lia || congruence.
Qed.
Lemma perm_forallb {A} (P : A -> bool) l l' : Permutation l l' -> forallb P l = forallb P l'.
Proof.
  induction 1; cbn; [reflexivity|congruence| |congruence].
  now rewrite !andb_assoc, (andb_comm (P y)).
Qed.
Lemma concat_flat_map {A B} (e : B -> list Z) (g : A -> list B) l :
  concat (map e (flat_map g l)) = concat (map (fun s => concat (map e (g s))) l).
Proof.
  induction l as [|x l IH]; cbn; [reflexivity|]. now rewrite map_app, concat_app, IH.
Qed.
Lemma forallb_flat_map {A B} (P : B -> bool) (g : A -> list B) l :
  forallb P (flat_map g l) = forallb (fun s => forallb P (g s)) l.
Proof.
  induction l as [|x l IH]; cbn; [reflexivity|]. now rewrite forallb_app, IH.
Qed.
Lemma forallb_ext_in {A} (P Q : A -> bool) l : (forall x, In x l -> P x = Q x) ->
  forallb P l = forallb Q l.
Proof.
  induction l as [|x l IH]; intros H; [reflexivity|]. cbn. f_equal; auto with datatypes.
Qed.
Lemma filter_rev {A} (P : A -> bool) l : filter P (rev l) = rev (filter P l).
Proof.
  induction l as [|x l IH]; [reflexivity|]. cbn [rev filter]. rewrite filter_app, IH. cbn.
  destruct (P x); cbn; [reflexivity|apply app_nil_r].
Qed.
Lemma forallb_rev {A} (P : A -> bool) l : forallb P (rev l) = forallb P l.
Proof. apply perm_forallb. symmetry. apply Permutation_rev. Qed.

(** Selecting the member with a given number. *)
Lemma select_concat (E : fdesc -> list Z) g l : NoDup (map f_num l) -> In g l ->
  concat (map (fun f => if f_num g =? f_num f then E f else []) l) = E g.
Proof.
  induction l as [|f l IH]; intros ND Hg; [destruct Hg|].
  cbn in ND. inversion ND as [|? ? N1 N2]; subst. cbn [map concat]. destruct Hg as [->|Hg].
  - rewrite Z.eqb_refl. replace (concat _) with (@nil Z); [apply app_nil_r|].
    clear IH ND N2. symmetry. induction l as [|f l IH]; [reflexivity|]. cbn [map concat].
    cbn in N1. replace (f_num g =? f_num f) with false by (symmetry; apply Z.eqb_neq; intuition).
    apply IH. tauto.
  - replace (f_num g =? f_num f) with false.
    + now apply IH.
    + symmetry. apply Z.eqb_neq. intros E'. apply N1. rewrite <- E'. now apply in_map.
Qed.
Lemma select_forallb (P : fdesc -> bool) g l : NoDup (map f_num l) -> In g l ->
  forallb (fun f => if f_num g =? f_num f then P f else true) l = P g.
Proof.
  induction l as [|f l IH]; intros ND Hg; [destruct Hg|].
  cbn in ND. inversion ND as [|? ? N1 N2]; subst. cbn [forallb]. destruct Hg as [->|Hg].
  - rewrite Z.eqb_refl. replace (forallb _ l) with true; [apply andb_true_r|].
    symmetry. apply forallb_forall. intros f Hf.
    replace (f_num g =? f_num f) with false; [reflexivity|].
    symmetry. apply Z.eqb_neq. intros E. apply N1. rewrite E. now apply in_map.
  - replace (f_num g =? f_num f) with false.
    + now apply IH.
    + symmetry. apply Z.eqb_neq. intros E'. apply N1. rewrite <- E'. now apply in_map.
Qed.

Lemma NoDup_map_filter {A B} (f : A -> B) P l : NoDup (map f l) -> NoDup (map f (filter P l)).
Proof.
  induction l as [|x l IH]; cbn; intros H; [constructor|].
  inversion H as [|? ? H1 H2]; subst. destruct (P x); [|auto]. cbn. constructor; [|auto].
  intros Hi. apply H1. apply in_map_iff in Hi as (y & E & Hy). apply filter_In in Hy as [Hy _].
  rewrite <- E. now apply in_map.
Qed.

Lemma find_field_in sc m f : wf_schema sc = true -> In f (md_fields (md_of sc m)) ->
  find_field (f_num f) (md_fields (md_of sc m)) = Some f.
Proof.
  intros W Hf. unfold find_field.
  destruct (find (fun g => f_num g =? f_num f) (md_fields (md_of sc m))) as [g|] eqn:E.
  - apply find_some in E as [Hg E]. f_equal. apply (wf_num_inj sc m); auto. lia.
  - exfalso. pose proof (find_none _ _ E f Hf) as X. cbn in X. lia.
Qed.
Lemma find_field_some num l f : find_field num l = Some f -> In f l /\ f_num f = num.
Proof. unfold find_field. intros H. apply find_some in H as [H1 H2]. split; [assumption|lia]. Qed.
