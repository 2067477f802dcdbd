(** The messages contained in a message: typing, checking [decodable], messages
    with the same content contain messages with the same content. *)
From Coq Require Import ZArith List Bool Lia Permutation.
From Verif Require Import Base BaseFacts Schema Value WireSpec Typing RecordSpec MsgSpec DecodeSpec ContentSpec
  OrderFacts SimFacts MarshalFacts SameFacts.
Import ListNotations.
Open Scope Z_scope.

Section Within.
Variable sc : schema.
Hypothesis W : wf_schema sc = true.

Lemma holds_wt m f v k x m1 : In f (md_fields (md_of sc m)) -> wt_field sc (md_of sc m) f v -> holds f v k x -> sub_of k = Some m1 ->
  wt_ptrmsg sc m1 x.
Proof.
  intros Hf T H Sk. apply wt_field_inv in T.
  assert (forall k' y, wt_elem sc k' y -> k' = k -> y = x -> wt_ptrmsg sc m1 x) as EL.
  { intros ? ? Te -> ->. destruct (wt_elem_sub sc k m1 x Sk Te); [now left|now right]. }
  inversion H as [? p ? l ? Ty Hx|? kk ? l y ? Ty Hx|? l ? ? Ty L Nx|? ? ? Ty]; subst; rewrite Ty in T.
  - destruct T as [T|(l0 & [= <-] & Tl)]; [discriminate|]. eapply EL; eauto.
  - destruct T as [T|(l0 & [= <-] & T1 & T2 & _)]; [discriminate|]. exact (EL _ _ (T2 _ Hx) eq_refl eq_refl).
  - assert (x = VNil \/ (exists x0, x = VPtr x0 /\ (is_num k = true \/ k = KString) /\ wt_elem sc k x0) \/ (is_num k = false /\ k <> KString /\ wt_elem sc k x)) as [?|[(x0 & -> & K & _)|(_ & _ & Te)]] by (destruct L; subst l; exact T).
    + now left.
    + exfalso. destruct K as [K| ->]; [destruct k|]; discriminate.
    + eapply EL; eauto.
  - destruct T as [T|(g & k' & x0 & E & Hg & Sg & Tg & Tx)]; [discriminate|]. injection E as En <-.
    assert (g = f) as -> by (eapply wf_num_inj; eauto). rewrite Ty in Tg. injection Tg as <-. eapply EL; eauto.
Qed.

Lemma within_wt m v m' x : within sc m v m' x -> wt_ptrmsg sc m v -> wt_ptrmsg sc m' x.
Proof.
  induction 1 as [|m s u h f k m1 x m' y F Hf Hh Sk _ IH]; [auto|]. intros [T|T]; [discriminate|]. apply IH.
  inversion T; subst. eapply holds_wt; eauto.
Qed.

(** The values a field holds, as a list. *)
Definition held (f : fdesc) (v : val) : list (kind * val) :=
  match f_ty f, v with
  | TField (LRepeated _) k, VList l => map (pair k) l
  | TMap _ k, VMap l => map (fun e => (k, snd e)) l
  | TField LOneof k, VOneof n x => if n =? f_num f then [(k, x)] else []
  | TField (LOptional | LRequired) k, v => [(k, v)]
  | _, _ => []
  end.
Lemma held_ok f v k x : holds f v k x -> In (k, x) (held f v).
Proof.
  unfold held. intros H. inversion H as [? p ? l ? Ty Hx|? kk ? l y ? Ty Hx|? l ? ? Ty L Nx|? ? ? Ty]; subst; rewrite Ty.
  - now apply in_map.
  - change (k, x) with ((fun e : val * val => (k, snd e)) (y, x)). now apply in_map.
  - destruct L; subst; now left.
  - rewrite Z.eqb_refl. now left.
Qed.

(** A checker: [ok] for messages without helpers, [uk] for unknown bytes. *)
Variable ok : nat -> val -> bool.
Variable uk : nat -> list Z -> bool.
Fixpoint decodable_b (n : nat) (m : nat) (v : val) : bool :=
  match n with
  | O => false
  | S n' =>
      if md_foreign (md_of sc m) then ok m v else
      match v with
      | VNil => forallb (fun f => negb (is_required f)) (md_fields (md_of sc m))
      | VMsg s u _ =>
          (negb (md_keep (md_of sc m)) || uk m u)
          && forallb (fun f => match f_ty f with TField _ (KGroup _) => is_nil (slot s (f_slot f)) | _ => true end) (md_fields (md_of sc m))
          && forallb (fun f => forallb (fun e => match sub_of (fst e) with
               | Some m1 => match f_ty f, snd e with TField (LOptional | LRequired) _, VNil => true | _, x => decodable_b n' m1 x end
               | None => true end) (held f (slot s (f_slot f)))) (md_fields (md_of sc m))
      | _ => true
      end
  end.
Variable P : nat -> val -> val -> Prop.
Hypothesis ok_ok : forall m x, md_foreign (md_of sc m) = true -> ok m x = true -> ok_here sc P m x.
Hypothesis uk_ok : forall m u, uk m u = true -> unknown_records sc m u.
Lemma decodable_b_ok n : forall m v, decodable_b n m v = true -> decodable sc P m v.
Proof.
  induction n as [|n IH]; [discriminate|]. intros m v H m' x Hw. cbn [decodable_b] in H.
  destruct (md_foreign (md_of sc m)) eqn:F.
  { inversion Hw; subst; [auto|congruence]. }
  inversion Hw as [|? s u h f k m1 y ? ? _ Hf Hh Sk Hw']; subst.
  - unfold ok_here. rewrite F. split.
    + intros ->. rewrite forallb_forall in H. intros f Hf. specialize (H f Hf). now apply negb_true_iff in H.
    + intros s u h ->. rewrite !andb_true_iff in H. destruct H as [[H1 H2] _]. split.
      * intros K. rewrite K in H1. auto.
      * intros f l g Hf Ty. rewrite forallb_forall in H2. specialize (H2 f Hf). rewrite Ty in H2. destruct (slot s (f_slot f)); try discriminate. reflexivity.
  - rewrite !andb_true_iff in H. destruct H as [_ H]. rewrite forallb_forall in H. specialize (H f Hf).
    rewrite forallb_forall in H. specialize (H _ (held_ok _ _ _ _ Hh)). cbn [fst snd] in H. rewrite Sk in H.
    apply (IH m1 y); [|exact Hw'].
    inversion Hh as [? p ? l ? Ty Hx|? kk ? l z ? Ty Hx|? l ? ? Ty L Nx|? ? ? Ty]; subst; rewrite Ty in H; try exact H.
    destruct L; subst l; destruct (slot s (f_slot f)); try exact H; now destruct Nx.
Qed.
End Within.

(** Corresponding sub-messages. *)
Section Same.
Variable sc : schema.
Variables E I : kind -> Z -> Z -> Prop.
Variable P : nat -> val -> val -> Prop.

Lemma Forall2_in {A B} (R : A -> B -> Prop) l l' x : Forall2 R l l' -> In x l -> exists y, In y l' /\ R x y.
Proof.
  induction 1 as [|a b l l' H _ IH]; [intros []|]. intros [<-|Hx]; [exists b; split; [now left|assumption]|].
  destruct (IH Hx) as (y & Hy & Ry). exists y. split; [now right|assumption].
Qed.

Lemma same_holds f v v' k x : same_field sc E I P f v v' -> holds f v k x -> (forall y, x <> VPtr y) -> (forall y, v' <> VPtr y) ->
  exists x', holds f v' k x' /\ same_value sc E I P k x x'.
Proof.
  intros S H N N'. inversion H as [? p ? l ? Ty Hx|? kk ? l y ? Ty Hx|? l ? ? Ty L Nx|? ? ? Ty]; subst; inversion S; subst;
    match goal with Q : f_ty f = _ |- _ => rewrite Ty in Q; try discriminate Q; injection Q; intros; subst end;
    try (match goal with L : ?l = _ \/ ?l = _ |- _ => destruct L; discriminate end); try congruence.
  - match goal with Q : Forall2 _ _ (vlist v') |- _ => destruct (Forall2_in _ _ _ _ Q Hx) as (x' & Hx' & Sx) end.
    exists x'. split; [|assumption]. destruct v'; try contradiction. eapply holds_list; eauto.
  - match goal with Q : Permutation _ ?l1, Q2 : Forall2 _ ?l1 (vmap v') |- _ =>
      destruct (Forall2_in _ _ _ _ Q2 (Permutation_in _ Q Hx)) as ([y' x'] & Hx' & _ & Sx) end.
    exists x'. split; [|assumption]. destruct v'; try contradiction. eapply holds_map; eauto.
  - exists v'. split; [eapply holds_set; eauto|].
    replace (deref x) with x in * by (destruct x; try reflexivity; edestruct N; eauto).
    replace (deref v') with v' in * by (destruct v'; try reflexivity; edestruct N'; eauto). assumption.
  - eexists. split; [eapply holds_member; eauto|assumption].
Qed.

Hypothesis W : wf_schema sc = true.
Lemma zero_holds m f k x : In f (md_fields (md_of sc m)) -> ~ holds f (slot (zero_slots (md_of sc m)) (f_slot f)) k x.
Proof.
  intros Hf H. rewrite (slot_zero sc m f W Hf) in H.
  pose proof (wf_ty sc m f W Hf) as WT. inversion H as [? p ? l ? Ty Hx Ex|? kk ? l y ? Ty Hx Ex|? l ? ? Ty L Nx Ex|? ? ? Ty Ex]; subst;
    rewrite Ty in *; try discriminate. destruct L; subst; now destruct Nx.
Qed.

Lemma wt_msg_notptr m v : wt_ptrmsg sc m v -> forall y, v <> VPtr y.
Proof. intros [->|T] y; [discriminate|]. inversion T; discriminate. Qed.

Lemma within_same m v m1 x : within sc m v m1 x -> md_foreign (md_of sc m1) = false ->
  forall v', wt_ptrmsg sc m v -> wt_ptrmsg sc m v' -> same_msg sc E I P m (or_empty sc m v) (or_empty sc m v') ->
  exists x', within sc m v' m1 x' /\ same_msg sc E I P m1 (or_empty sc m1 x) (or_empty sc m1 x').
Proof.
  induction 1 as [|m s u h f k m1 x m' y F Hf Hh Sk Hw IH]; intros F1 v' T T' S; [exists v'; split; [apply in_self|exact S]|].
  cbn [or_empty] in S.
  assert (exists s' u' h', or_empty sc m v' = VMsg s' u' h') as (s' & u' & h' & Ev) by (inversion S; eauto).
  rewrite Ev in S. inversion S as [? ? ? ? ? ? ? SF _]; subst. specialize (SF f Hf).
  destruct T as [|T]; [discriminate|]. inversion T as [? ? ? ? _ WF _]; subst. pose proof (holds_wt sc W m f _ k x m1 Hf (WF f Hf) Hh Sk) as Tx.
  assert (wt_field sc (md_of sc m) f (slot s' (f_slot f)) \/ v' = VNil) as [WF'| ->].
  { destruct T' as [->|T']; [now right|left]. inversion T' as [? ? ? ? _ WF' _]; subst. cbn in Ev. injection Ev as <- <- <-. auto. }
  2:{ cbn in Ev. injection Ev as <- <- <-. apply same_holds with (1 := SF) in Hh as (x' & Hh' & _); [|eapply wt_msg_notptr; eauto|].
      - exfalso. eapply zero_holds; eauto.
      - intros y0 Q. rewrite (slot_zero sc m f W Hf) in Q. destruct (f_ty f) as [[] k0|]; try discriminate; destruct k0; discriminate. }
  destruct (same_holds f _ _ k x SF Hh) as (x' & Hh' & Sx); [eapply wt_msg_notptr; eauto| |].
  - intros y0 Q. rewrite Q in *. apply wt_field_inv in WF'. 
    inversion Hh as [? p ? l ? Ty Hx|? kk ? l z ? Ty Hx|? l ? ? Ty L Nx|? ? ? Ty]; subst; rewrite Ty in WF'.
    + destruct WF' as [|(? & ? & _)]; discriminate.
    + destruct WF' as [|(? & ? & _)]; discriminate.
    + assert (VPtr y0 = VNil \/ (exists x0, VPtr y0 = VPtr x0 /\ (is_num k = true \/ k = KString) /\ wt_elem sc k x0) \/ (is_num k = false /\ k <> KString /\ wt_elem sc k (VPtr y0))) as [|[(x0 & _ & K & _)|(_ & _ & Te)]] by (destruct L; subst l; exact WF').
      * discriminate.
      * destruct K as [K| ->]; [destruct k|]; discriminate.
      * revert Te. apply wt_elem_notptr.
    + destruct WF' as [|(? & ? & ? & ? & _)]; discriminate.
  - pose proof (holds_wt sc W m f _ k x' m1 Hf WF' Hh' Sk) as Tx'.
    assert (v' = VMsg s' u' h') as -> by (destruct v'; cbn in Ev; try congruence; injection Ev as <- <- <-; exfalso; eapply zero_holds; eauto).
    assert (md_foreign (md_of sc m1) = true -> exists x'0 : val, within sc m (VMsg s' u' h') m' x'0 /\ same_msg sc E I P m' (or_empty sc m' y) (or_empty sc m' x'0)) as FO.
    { intros F2. inversion Hw; subst; congruence. }
    inversion Sx; subst; try (match goal with Q : is_num k = true |- _ => destruct k; discriminate end);
      try (match goal with Q : k = _ \/ k = _ |- _ => destruct Q; subst k; discriminate end);
      match goal with Q : sub_of k = Some ?mm |- _ => assert (mm = m1) as -> by congruence end; [|auto].
    match goal with Q : same_msg _ _ _ _ m1 _ _ |- _ => destruct (IH F1 x' Tx Tx' Q) as (y' & Hy & Sy) end.
    exists y'. split; [|exact Sy]. eapply in_sub; eauto.
Qed.
End Same.
