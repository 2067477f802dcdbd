(** Well-formed schemas and well-typed values: what the Go type checker and
    protoc guarantee about the programs in which generated code runs. *)
From Coq Require Import ZArith List Bool Lia.
From Verif Require Import Base Schema Value WireSpec.
Import ListNotations.
Open Scope Z_scope.

(** Kinds represented by a number. *)
Definition is_num (k : kind) : bool :=
  match k with KString | KBytes | KMessage _ | KGroup _ => false | _ => true end.

(** Range of the Go type of a number. *)
Definition in_range (k : kind) (z : Z) : bool :=
  match k with
  | KDouble | KFixed64 | KUint64 => (0 <=? z) && (z <? 18446744073709551616)
  | KFloat | KFixed32 | KUint32 => (0 <=? z) && (z <? 4294967296)
  | KInt64 | KSfixed64 | KSint64 =>
      (-9223372036854775808 <=? z) && (z <? 9223372036854775808)
  | KInt32 | KSfixed32 | KSint32 | KEnum => (-2147483648 <=? z) && (z <? 2147483648)
  | KBool => (z =? 0) || (z =? 1)
  | _ => false
  end.

Definition sub_of (k : kind) : option nat :=
  match k with KMessage m | KGroup m => Some m | _ => None end.

(** The rules of protoc for one field (of a schema with [n] messages): *)
Definition wf_kind (n : nat) (k : kind) : bool :=
  match sub_of k with Some m => Nat.ltb m n | None => true end.
Definition key_kind (k : kind) : bool :=
  match k with
  | KDouble | KFloat | KBytes | KEnum | KMessage _ | KGroup _ => false
  | _ => true
  end.
Definition is_group (k : kind) : bool := match k with KGroup _ => true | _ => false end.
Definition wf_type (n : nat) (t : ftype) : bool :=
  match t with
  | TMap kk vk => key_kind kk && wf_kind n vk && negb (is_group vk)
  | TField l k =>
      wf_kind n k &&
      match l with
      | LImplicit => match sub_of k with None => true | _ => false end
      | LOptional | LRequired => true
      | LRepeated p => (if p then is_num k else true) && negb (is_group k)
      | LOneof => negb (is_group k)
      end
  end.

(** Groups in lists and oneofs are excluded: the code generated for them does not
    compile (unmarshal.go:462-481 passes the slice / wrapper to decodeMessage). *)
Definition wf_field (n : nat) (md : mdesc) (f : fdesc) : bool :=
  (1 <=? f_num f) && (f_num f <? 536870912) && Nat.ltb (f_slot f) (md_nslots md)
  && wf_type n (f_ty f).

(** Distinct numbers; struct members shared by oneof members only. *)
Definition compatible (f g : fdesc) : bool :=
  negb (f_num f =? f_num g)
  && (negb (Nat.eqb (f_slot f) (f_slot g)) || (is_oneof f && is_oneof g)).
Fixpoint pairwise {A} (R : A -> A -> bool) (l : list A) : bool :=
  match l with
  | [] => true
  | x :: l' => forallb (R x) l' && pairwise R l'
  end.

Definition wf_msg (n : nat) (md : mdesc) : bool :=
  forallb (wf_field n md) (md_fields md) && pairwise compatible (md_fields md).
Definition wf_schema (sc : schema) : bool :=
  forallb (wf_msg (length (sc_msgs sc))) (sc_msgs sc).

(** Well-typed Go values.  [wt_elem]: list element, map key or value, oneof
    member, pointer target; [wt_field]: struct member; [wt_msg]: non-nil message. *)
Inductive wt_elem (sc : schema) : kind -> val -> Prop :=
| wt_num k z : in_range k z = true -> wt_elem sc k (VInt z)
| wt_str s : bytes_ok s = true -> wt_elem sc KString (VStr s)
| wt_bytes s : bytes_ok s = true -> wt_elem sc KBytes (VBytes s)
| wt_nilbytes : wt_elem sc KBytes VNil
| wt_nilsub k m : sub_of k = Some m -> wt_elem sc k VNil
| wt_sub k m v : sub_of k = Some m -> wt_msg sc m v -> wt_elem sc k v
with wt_field (sc : schema) : mdesc -> fdesc -> val -> Prop :=
| wt_unset md f : zero_of (f_ty f) = VNil -> wt_field sc md f VNil
| wt_implicit md f k v :
    f_ty f = TField LImplicit k -> wt_elem sc k v -> wt_field sc md f v
| wt_ptr md f l k v :
    f_ty f = TField l k -> l = LOptional \/ l = LRequired ->
    is_num k = true \/ k = KString -> wt_elem sc k v -> wt_field sc md f (VPtr v)
| wt_direct md f l k v :
    f_ty f = TField l k -> l = LOptional \/ l = LRequired ->
    is_num k = false -> k <> KString -> wt_elem sc k v -> wt_field sc md f v
| wt_list md f p k l :
    f_ty f = TField (LRepeated p) k -> (forall x, In x l -> wt_elem sc k x) ->
    wt_field sc md f (VList l)
| wt_map md f kk vk l :
    f_ty f = TMap kk vk -> (forall e, In e l -> wt_elem sc kk (fst e)) ->
    (forall e, In e l -> wt_elem sc vk (snd e)) -> NoDup (map fst l) ->
    wt_field sc md f (VMap l)
| wt_oneof md f k g k' x :
    f_ty f = TField LOneof k -> In g (md_fields md) -> f_slot g = f_slot f ->
    f_ty g = TField LOneof k' -> wt_elem sc k' x ->
    wt_field sc md f (VOneof (f_num g) x)
with wt_msg (sc : schema) : nat -> val -> Prop :=
| wt_mk m slots unk hid :
    length slots = md_nslots (md_of sc m) ->
    (forall f, In f (md_fields (md_of sc m)) ->
               wt_field sc (md_of sc m) f (slot slots (f_slot f))) ->
    bytes_ok unk = true ->
    wt_msg sc m (VMsg slots unk hid).

(** A message pointer: nil or a message. *)
Definition wt_ptrmsg (sc : schema) (m : nat) (v : val) : Prop := v = VNil \/ wt_msg sc m v.

(** What upstream guarantees about encoding (proto.Size agrees with proto.Marshal,
    nil messages are empty). *)
Record up_enc_ok (sc : schema) : Prop := {
  up_size_ok : forall m v, md_foreign (md_of sc m) = true ->
    up_size (sc_up sc) m v = zlen (up_enc (sc_up sc) m v);
  up_nil_ok : forall m, md_foreign (md_of sc m) = true -> up_enc (sc_up sc) m VNil = [] }.

(** Consequences of well-formedness. *)
Lemma pairwise_spec {A} (R : A -> A -> bool) l : pairwise R l = true ->
  forall i j x y, (i < j)%nat -> nth_error l i = Some x -> nth_error l j = Some y -> R x y = true.
Proof.
  induction l as [|a l IH]; intros H i j x y Hij Hi Hj.
  - destruct i; discriminate.
  - cbn in H. apply andb_true_iff in H as [H1 H2].
    destruct j as [|j]; [lia|]. cbn in Hj. destruct i as [|i].
    + cbn in Hi. injection Hi as <-. rewrite forallb_forall in H1. apply H1.
      eapply nth_error_In, Hj.
    + cbn in Hi. eapply (IH H2 i j); eauto. lia.
Qed.

Lemma md_default_wf n : wf_msg n md_default = true. Proof. reflexivity. Qed.
Lemma wf_md sc m : wf_schema sc = true -> wf_msg (length (sc_msgs sc)) (md_of sc m) = true.
Proof.
  intros H. unfold md_of. destruct (nth_in_or_default m (sc_msgs sc) md_default) as [Hi| ->].
  - unfold wf_schema in H. rewrite forallb_forall in H. now apply H.
  - reflexivity.
Qed.

Lemma wf_fld sc m f : wf_schema sc = true -> In f (md_fields (md_of sc m)) ->
  wf_field (length (sc_msgs sc)) (md_of sc m) f = true.
Proof.
  intros H Hi. pose proof (wf_md sc m H) as W. unfold wf_msg in W.
  apply andb_true_iff in W as [W _]. rewrite forallb_forall in W. now apply W.
Qed.

Lemma wf_num sc m f : wf_schema sc = true -> In f (md_fields (md_of sc m)) ->
  1 <= f_num f < 536870912.
Proof. intros H Hi. pose proof (wf_fld _ _ _ H Hi) as W. unfold wf_field in W. lia. Qed.

Lemma wf_slot sc m f : wf_schema sc = true -> In f (md_fields (md_of sc m)) ->
  (f_slot f < md_nslots (md_of sc m))%nat.
Proof.
  intros H Hi. pose proof (wf_fld _ _ _ H Hi) as W. unfold wf_field in W.
  rewrite !andb_true_iff in W. destruct W as [[_ W] _]. now apply Nat.ltb_lt in W.
Qed.

Lemma wf_ty sc m f : wf_schema sc = true -> In f (md_fields (md_of sc m)) ->
  wf_type (length (sc_msgs sc)) (f_ty f) = true.
Proof.
  intros H Hi. pose proof (wf_fld _ _ _ H Hi) as W. unfold wf_field in W.
  rewrite !andb_true_iff in W. tauto.
Qed.

Lemma wf_compat sc m f g : wf_schema sc = true ->
  In f (md_fields (md_of sc m)) -> In g (md_fields (md_of sc m)) -> f <> g ->
  f_num f <> f_num g /\ (f_slot f = f_slot g -> is_oneof f = true /\ is_oneof g = true).
Proof.
  intros H Hf Hg Hne. pose proof (wf_md sc m H) as W. unfold wf_msg in W.
  apply andb_true_iff in W as [_ W].
  apply In_nth_error in Hf as [i Hi]. apply In_nth_error in Hg as [j Hj].
  assert (compatible f g = true \/ compatible g f = true) as C.
  { destruct (Nat.lt_trichotomy i j) as [L|[->|L]].
    - left. eapply pairwise_spec; eauto.
    - congruence.
    - right. eapply pairwise_spec; eauto. }
  unfold compatible in C. destruct C as [C|C]; apply andb_true_iff in C as [C1 C2];
    (split; [lia|]); intros E; rewrite E, Nat.eqb_refl in C2; cbn in C2;
    apply andb_true_iff in C2; tauto.
Qed.

Lemma wf_num_inj sc m f g : wf_schema sc = true ->
  In f (md_fields (md_of sc m)) -> In g (md_fields (md_of sc m)) -> f_num f = f_num g -> f = g.
Proof.
  intros H Hf Hg E.
  destruct (Z.eq_dec (f_num f) (f_num g)) as [_|N]; [|congruence].
  assert (forall x y : fdesc, {x = y} + {x <> y}) as D by (repeat decide equality).
  destruct (D f g) as [|Ne]; [assumption|].
  now destruct (wf_compat sc m f g H Hf Hg Ne).
Qed.

Lemma wf_NoDup sc m : wf_schema sc = true -> NoDup (map f_num (md_fields (md_of sc m))).
Proof.
  intros H. pose proof (wf_md sc m H) as W. unfold wf_msg in W.
  apply andb_true_iff in W as [_ W]. induction (md_fields (md_of sc m)) as [|f l IH]; [constructor|].
  cbn in W. apply andb_true_iff in W as [W1 W2]. cbn. constructor; [|now apply IH].
  intros Hi. apply in_map_iff in Hi as (g & Eg & Hg).
  rewrite forallb_forall in W1. specialize (W1 g Hg). unfold compatible in W1. lia.
Qed.

(** Inversion of [wt_field] by the type of the field. *)
Lemma wt_field_inv sc md f v : wt_field sc md f v ->
  match f_ty f with
  | TField LImplicit k => wt_elem sc k v
  | TField (LOptional | LRequired) k =>
      v = VNil
      \/ (exists x, v = VPtr x /\ (is_num k = true \/ k = KString) /\ wt_elem sc k x)
      \/ (is_num k = false /\ k <> KString /\ wt_elem sc k v)
  | TField (LRepeated _) k =>
      v = VNil \/ exists l, v = VList l /\ forall x, In x l -> wt_elem sc k x
  | TMap kk vk =>
      v = VNil \/ exists l, v = VMap l /\ (forall e, In e l -> wt_elem sc kk (fst e)) /\
        (forall e, In e l -> wt_elem sc vk (snd e)) /\ NoDup (map fst l)
  | TField LOneof _ =>
      v = VNil \/ exists g k x, v = VOneof (f_num g) x /\ In g (md_fields md) /\
        f_slot g = f_slot f /\ f_ty g = TField LOneof k /\ wt_elem sc k x
  end.
Proof.
  intros H. destruct H as [md f Z|md f k v E H|md f l k v E L K H|md f l k v E L K1 K2 H
    |md f p k l E H|md f kk vk l E H1 H2 H3|md f k g k' x E Hg Hs Ht H].
  - destruct (f_ty f) as [[] k|kk vk] eqn:T; try tauto.
    cbn in Z. destruct k; try discriminate Z; try constructor; econstructor; reflexivity.
  - now rewrite E.
  - rewrite E. destruct L as [-> | ->]; right; left; eauto.
  - rewrite E. destruct L as [-> | ->]; right; right; auto.
  - rewrite E. right. eauto.
  - rewrite E. right. exists l. auto.
  - rewrite E. right. exists g, k', x. auto.
Qed.

Lemma wt_elem_notptr sc k x : ~ wt_elem sc k (VPtr x).
Proof. intros H. inversion H as [| | | | |? ? ? ? M]; subst; try inversion M. Qed.
Lemma wt_elem_num sc k v : is_num k = true -> wt_elem sc k v -> exists z, v = VInt z /\ in_range k z = true.
Proof.
  intros N H. inversion H as [? z R| | | |? m E|? m ? E]; subst; try discriminate; eauto; destruct k; discriminate.
Qed.
