(** UnmarshalVT on memory computes what UnmarshalVT on trees computes. *)
From Coq Require Import ZArith List Bool Lia.
From Verif Require Import PoolSpec.
From Verif Require Import Heap HeapSpec HeapRead HeapDec HeapOwnSpec HeapOwnFacts.
From Verif Require Import Base BaseFacts Schema Value Helpers Unmarshal WireSpec Typing RecordSpec MsgSpec
  VarintFacts SkipFacts NumFacts ViewFacts TargetFacts UmFacts.
Import ListNotations.
Open Scope Z_scope.

(** * The tree in memory and the tree of the run on trees *)
(** Numbers, strings and byte slices. *)
Definition leaf (k : kind) (x : val) : Prop :=
  (is_num k = true /\ exists z, x = VInt z) \/ (k = KString /\ exists q, x = VStr q) \/ (k = KBytes /\ (x = VNil \/ exists q, x = VBytes q)).
Definition rel_value (R : nat -> val -> val -> Prop) (k : kind) (x y : val) : Prop :=
  leaf k x /\ x = y \/ exists m, sub_of k = Some m /\ R m x y.
Definition at_field (sc : schema) (loc : nat -> Prop) (R : nat -> val -> val -> Prop) (m : nat) (f : fdesc) (ss : list val) (u : list Z) (h : list (list val)) (ss' : list val) (h' : list (list val)) : Prop :=
  loc m /\ In f (md_fields (md_of sc m)) /\ R m (VMsg ss u h) (VMsg ss' u h') /\ target sc m (VMsg ss' u h').
(** [R m a b]: while decoding on trees has [b], a message of type [m], memory has [a]; [RE]:
    after decoding has failed.  What is needed of them: *)
Record rel_ok (sc : schema) (ru : bool) (loc : nat -> Prop) (R RE : nat -> val -> val -> Prop) : Prop := {
  r_loc : forall m, md_foreign (md_of sc m) = false -> loc m;
  r_nil : forall m, R m VNil VNil;
  r_new : forall m, R m (new_msg (md_of sc m)) (new_msg (md_of sc m));
  r_err : forall m a b, R m a b -> RE m a b;
  r_wt : forall m a b, target sc m b -> R m a b -> wt_msg sc m a;
  r_dec : forall m bs v, md_foreign (md_of sc m) = true -> up_dec (sc_up sc) m bs = Some v -> R m v v;
  r_ext : forall m bs v, loc m -> up_ext (sc_up sc) m bs = Some v -> R m v v;
  r_shape : forall m a b, loc m -> target sc m b -> R m a b -> exists ss u h ss' h', a = VMsg ss u h /\ b = VMsg ss' u h' /\ length ss = length ss';
  r_hid : ru = true -> forall m ss u h b i, loc m -> R m (VMsg ss u h) b -> nth i h [] <> [] ->
    message_list sc m i /\ forall z, In z (nth i h []) -> z = VNil \/ exists x y w, z = VMsg x y w;
  r_unk : forall m ss u h ss' h' bs, loc m -> R m (VMsg ss u h) (VMsg ss' u h') -> R m (VMsg ss (u ++ bs) h) (VMsg ss' (u ++ bs) h');
  r_store : forall m f ss u h ss' h' lbl k x, at_field sc loc R m f ss u h ss' h' -> f_ty f = TField lbl k -> leaf k x -> x <> VNil ->
    match store f lbl k x (VMsg ss u h), store f lbl k x (VMsg ss' u h') with Some a, Some b => R m a b | None, None => True | _, _ => False end;
  r_list : forall m f ss u h ss' h' p k, at_field sc loc R m f ss u h ss' h' -> f_ty f = TField (LRepeated p) k ->
    (slot ss (f_slot f) = VNil \/ exists l, slot ss (f_slot f) = VList l) /\ length (vlist (slot ss (f_slot f))) = length (vlist (slot ss' (f_slot f)));
  r_bytes : forall m f ss u h ss' h' lbl, at_field sc loc R m f ss u h ss' h' -> f_ty f = TField lbl KBytes -> lbl <> LOneof -> (forall p, lbl <> LRepeated p) ->
    slot ss (f_slot f) = VNil \/ exists b, slot ss (f_slot f) = VBytes b;
  r_empty : forall m f ss u h ss' h' p k, at_field sc loc R m f ss u h ss' h' -> f_ty f = TField (LRepeated p) k ->
    slot ss (f_slot f) = VNil -> R m (VMsg (list_set ss (f_slot f) (VList [])) u h) (VMsg (list_set ss' (f_slot f) (VList [])) u h');
  e_empty : forall m f ss u h ss' h' p k, at_field sc loc R m f ss u h ss' h' -> f_ty f = TField (LRepeated p) k ->
    slot ss (f_slot f) = VNil -> RE m (VMsg (list_set ss (f_slot f) (VList [])) u h) (VMsg ss' u h');
  r_map : forall m f ss u h ss' h' kk vk, at_field sc loc R m f ss u h ss' h' -> f_ty f = TMap kk vk ->
    slot ss (f_slot f) = VNil \/ exists l, slot ss (f_slot f) = VMap l;
  r_map0 : forall m f ss u h ss' h' kk vk, at_field sc loc R m f ss u h ss' h' -> f_ty f = TMap kk vk ->
    R m (VMsg (list_set ss (f_slot f) (VMap (vmap (slot ss (f_slot f))))) u h) (VMsg (list_set ss' (f_slot f) (VMap (vmap (slot ss' (f_slot f))))) u h');
  r_mapset : forall m f ss u h ss' h' kk vk key x y, at_field sc loc R m f ss u h ss' h' -> f_ty f = TMap kk vk -> key_kind kk = true -> leaf kk key -> rel_value R vk x y ->
    R m (VMsg (list_set ss (f_slot f) (VMap (map_set (vmap (slot ss (f_slot f))) key x))) u h) (VMsg (list_set ss' (f_slot f) (VMap (map_set (vmap (slot ss' (f_slot f))) key y))) u h');
  r_sub : forall m f ss u h ss' h' lbl m', at_field sc loc R m f ss u h ss' h' -> f_ty f = TField lbl (KMessage m') -> lbl = LOptional \/ lbl = LRequired ->
    R m' (slot ss (f_slot f)) (slot ss' (f_slot f)) /\ (slot ss (f_slot f) = VNil <-> slot ss' (f_slot f) = VNil);
  r_set : forall m f ss u h ss' h' lbl m' x y, at_field sc loc R m f ss u h ss' h' -> f_ty f = TField lbl (KMessage m') -> lbl = LOptional \/ lbl = LRequired ->
    R m' x y -> R m (VMsg (list_set ss (f_slot f) x) u h) (VMsg (list_set ss' (f_slot f) y) u h');
  e_set : forall m f ss u h ss' h' lbl m' x y, at_field sc loc R m f ss u h ss' h' -> f_ty f = TField lbl (KMessage m') -> lbl = LOptional \/ lbl = LRequired ->
    RE m' x y -> RE m (VMsg (list_set ss (f_slot f) x) u h) (VMsg (list_set ss' (f_slot f) y) u h');
  r_grow : forall m f ss u h ss' h' p m' tx hx ty hy, at_field sc loc R m f ss u h ss' h' -> f_ty f = TField (LRepeated p) (KMessage m') ->
    list_grow sc (md_of sc m) m' h (f_slot f) = (tx, hx) -> list_grow sc (md_of sc m) m' h' (f_slot f) = (ty, hy) ->
    R m' tx ty /\
    (forall x y, y <> VNil -> R m' x y -> R m (VMsg (list_set ss (f_slot f) (VList (vlist (slot ss (f_slot f)) ++ [x]))) u hx) (VMsg (list_set ss' (f_slot f) (VList (vlist (slot ss' (f_slot f)) ++ [y]))) u hy)) /\
    (forall x y, y <> VNil -> RE m' x y -> RE m (VMsg (list_set ss (f_slot f) (VList (vlist (slot ss (f_slot f)) ++ [x]))) u hx) (VMsg (list_set ss' (f_slot f) (VList (vlist (slot ss' (f_slot f)) ++ [y]))) u hy));
  r_oneof : forall m f ss u h ss' h' m', at_field sc loc R m f ss u h ss' h' -> f_ty f = TField LOneof (KMessage m') ->
    slot ss (f_slot f) = VNil /\ slot ss' (f_slot f) = VNil \/
    exists n x y, slot ss (f_slot f) = VOneof n x /\ slot ss' (f_slot f) = VOneof n y /\ (n = f_num f -> R m' x y);
  r_member : forall m f ss u h ss' h' m' x y, at_field sc loc R m f ss u h ss' h' -> f_ty f = TField LOneof (KMessage m') ->
    R m' x y -> R m (VMsg (list_set ss (f_slot f) (VOneof (f_num f) x)) u h) (VMsg (list_set ss' (f_slot f) (VOneof (f_num f) y)) u h');
  e_member : forall m f ss u h ss' h' m' x y, at_field sc loc R m f ss u h ss' h' -> f_ty f = TField LOneof (KMessage m') ->
    RE m' x y -> RE m (VMsg (list_set ss (f_slot f) (VOneof (f_num f) x)) u h) (VMsg (list_set ss' (f_slot f) (VOneof (f_num f) y)) u h') }.

Section Ops.
Variables pl ru : bool.
(** UnmarshalVTUnsafe or UnmarshalVT. *)
Variable unsafe : bool.
Variable V : nat -> Prop.
Variable grow : nat -> nat.
(** The message at [a] that waits in a pool is the tree [pt a], made of the objects of color
    [S a]. *)
Variable pc : nat -> nat.
Variable pt : nat -> val.
(** What may wait in the pool of a message type. *)
Variable pr : nat -> val -> Prop.
Notation own := (owns pl ru unsafe V).
Notation oslot := (own_slot pl ru unsafe V).

(** * States *)
Definition pooled (s : mem) (b : nat) : bool := existsb (fun e => Nat.eqb (pc b) (S (snd e))) (free s).
Definition waiting (s : mem) : Prop :=
  NoDup (map snd (free s)) /\ (forall m a, In (m, a) (free s) -> pr m (pt a) /\ own (heap s) (fun b => pc b = S a) (pt a) (HPtr a)) /\ (ru = false -> free s = []).
Definition base (P : nat -> Prop) (s : mem) : Prop :=
  (forall b, P b -> (b < length (heap s))%nat /\ pooled s b = false) /\ (forall b, V b -> (b < length (heap s))%nat /\ ~ P b /\ pooled s b = false) /\
  (forall b, pooled s b = true -> (b < length (heap s))%nat) /\ waiting s.
Definition ok (P : nat -> Prop) (s : mem) (p : input) (d : list Z) : Prop :=
  base P s /\ input_is p d (heap s) /\ ~ P (in_arr p) /\ pooled s (in_arr p) = false /\ (unsafe = true -> V (in_arr p)).
(** Taken from a pool; taken from a pool or allocated. *)
Definition drew (s s' : mem) (b : nat) : bool := pooled s b && negb (pooled s' b).
Definition newb (s s' : mem) (b : nat) : bool := (Nat.leb (length (heap s)) b && Nat.ltb b (length (heap s'))) || drew s s' b.
Definition goes (P : nat -> Prop) (s s' : mem) : Prop :=
  (length (heap s) <= length (heap s'))%nat /\
  (forall a, (a < length (heap s))%nat -> ~ P a -> drew s s' a = false -> nth_error (heap s') a = nth_error (heap s) a) /\
  incl (free s') (free s) /\ (NoDup (map snd (free s)) -> NoDup (map snd (free s'))).
Definition gr (P : nat -> Prop) (s s' : mem) : nat -> Prop := plus P (newb s s').
Definition none : nat -> Prop := fun _ => False.
Definition since (s s' : mem) : nat -> Prop := fun b => newb s s' b = true.

Lemma pooled_in s b : pooled s b = true <-> exists m a, In (m, a) (free s) /\ pc b = S a.
Proof.
  unfold pooled. rewrite existsb_exists. split.
  - intros ([m a] & Hin & E). apply Nat.eqb_eq in E. eauto.
  - intros (m & a & Hin & E). exists (m, a). split; [assumption|]. cbn. apply Nat.eqb_eq. congruence.
Qed.
Lemma pooled_sub s s' b : incl (free s') (free s) -> pooled s' b = true -> pooled s b = true.
Proof. rewrite !pooled_in. intros I (m & a & H & E). eauto 6. Qed.
Lemma pooled_same s s' b : free s' = free s -> pooled s' b = pooled s b.
Proof. unfold pooled. now intros ->. Qed.
Lemma drew_same s s' b : free s' = free s -> drew s s' b = false.
Proof. intros E. unfold drew. rewrite (pooled_same s s' b E). apply andb_negb_r. Qed.
Lemma newb_same s s' b : free s' = free s -> newb s s' b = Nat.leb (length (heap s)) b && Nat.ltb b (length (heap s')).
Proof. intros E. unfold newb. rewrite drew_same by assumption. apply orb_false_r. Qed.
Lemma newb_iff s s' b : newb s s' b = true <-> (length (heap s) <= b < length (heap s'))%nat \/ drew s s' b = true.
Proof. unfold newb. rewrite orb_true_iff, andb_true_iff, Nat.leb_le, Nat.ltb_lt. reflexivity. Qed.
Lemma drew_iff s s' b : drew s s' b = true <-> pooled s b = true /\ pooled s' b = false.
Proof. unfold drew. rewrite andb_true_iff, negb_true_iff. reflexivity. Qed.
Lemma since_self s b : ~ since s s b.
Proof. unfold since. rewrite newb_iff, drew_iff. intros [H|[H1 H2]]; [lia|congruence]. Qed.

Lemma goes_refl P s : goes P s s. Proof. split; [lia|]. split; [auto|]. split; [apply incl_refl|auto]. Qed.
Lemma goes_len P s s' : goes P s s' -> (length (heap s) <= length (heap s'))%nat. Proof. intros [L _]. exact L. Qed.
Lemma newb_left P s s1 s2 b : goes P s1 s2 -> newb s s1 b = true -> newb s s2 b = true.
Proof.
  intros (L & _ & I & _). rewrite !newb_iff, !drew_iff. intros [H|[H1 H2]]; [left; lia|right]. split; [assumption|].
  destruct (pooled s2 b) eqn:E; [|reflexivity]. apply (pooled_sub s1 s2 b I) in E. congruence.
Qed.
Lemma newb_right P s s1 s2 b : goes P s s1 -> newb s1 s2 b = true -> newb s s2 b = true.
Proof.
  intros (L & _ & I & _). rewrite !newb_iff, !drew_iff. intros [H|[H1 H2]]; [left; lia|right]. split; [|assumption]. eapply pooled_sub; eauto.
Qed.
Lemma goes_trans P s s1 s2 : goes P s s1 -> goes (gr P s s1) s1 s2 -> goes P s s2.
Proof.
  intros G1 G2. pose proof G1 as (L1 & E1 & I1 & D1). pose proof G2 as (L2 & E2 & I2 & D2). split; [lia|]. split.
  - intros a La Na Da.
    assert (drew s s1 a = false) as Da1.
    { destruct (drew s s1 a) eqn:E; [|reflexivity]. rewrite drew_iff in E. destruct E as [X1 X2]. rewrite <- Da. symmetry. apply drew_iff. split; [assumption|].
      destruct (pooled s2 a) eqn:E; [|reflexivity]. apply (pooled_sub s1 s2 a I2) in E. congruence. }
    rewrite E2; [now apply E1|lia| |].
    + intros [?|X]; [auto|]. apply newb_iff in X as [?|?]; [lia|congruence].
    + destruct (drew s1 s2 a) eqn:E; [|reflexivity]. rewrite drew_iff in E. destruct E as [X1 X2]. rewrite <- Da. symmetry. apply drew_iff. split; [eapply pooled_sub; eauto|assumption].
  - split; [eapply incl_tran; eassumption|auto].
Qed.
Lemma goes_sub (P P' : nat -> Prop) s s' : (forall b, (b < length (heap s))%nat -> P b -> P' b) -> goes P s s' -> goes P' s s'.
Proof. intros H (L & E & I). split; [assumption|]. split; [|assumption]. intros a La Na. apply E; auto. Qed.
Lemma gr_gr P P0 P1 s s1 s2 b : goes P0 s s1 -> goes P1 s1 s2 -> gr (gr P s s1) s1 s2 b -> gr P s s2 b.
Proof. intros G1 G2 [[Pb|X]|X]; [now left|right; eapply newb_left; eauto|right; eapply newb_right; eauto]. Qed.
Lemma new_fresh P s s' b : base P s -> goes P s s' -> newb s s' b = true -> (b < length (heap s'))%nat /\ pooled s' b = false /\ ~ P b /\ ~ V b.
Proof.
  intros (B1 & B2 & B3 & _) (L & _ & I & _) X. apply newb_iff in X as [X|X].
  - split; [lia|]. split; [|split].
    + destruct (pooled s' b) eqn:E; [|reflexivity]. apply (pooled_sub s s' b I) in E. apply B3 in E. lia.
    + intros Pb. destruct (B1 b Pb). lia.
    + intros Vb. destruct (B2 b Vb). lia.
  - apply drew_iff in X as [X1 X2]. split; [apply B3 in X1; lia|]. split; [assumption|]. split.
    + intros Pb. destruct (B1 b Pb). congruence.
    + intros Vb. destruct (B2 b Vb) as (? & ? & ?). congruence.
Qed.
Lemma goes_keep (P : nat -> Prop) s s' b : goes P s s' -> (b < length (heap s))%nat -> ~ P b -> pooled s b = false \/ pooled s' b = true -> nth_error (heap s') b = nth_error (heap s) b.
Proof.
  intros (_ & E & I & _) L N H. apply E; auto. destruct (drew s s' b) eqn:X; [|reflexivity]. apply drew_iff in X as [X1 X2]. destruct H; congruence.
Qed.
Lemma goes_V P s s' b : base P s -> goes P s s' -> V b -> nth_error (heap s') b = nth_error (heap s) b.
Proof. intros (_ & B2 & _) G Vb. destruct (B2 b Vb) as (? & ? & ?). eapply goes_keep; eauto. Qed.
Lemma base_goes P s s' : base P s -> goes P s s' -> base (gr P s s') s'.
Proof.
  intros B G. pose proof B as (B1 & B2 & B3 & W1 & W2 & W3). pose proof G as (L & E & I & D). split; [|split; [|split; [|split; [|split]]]].
  - intros b [Pb|Hb]; [|now destruct (new_fresh _ _ _ _ B G Hb) as (? & ? & _)]. destruct (B1 b Pb) as [? N]. split; [lia|].
    destruct (pooled s' b) eqn:X; [|reflexivity]. apply (pooled_sub s s' b I) in X. congruence.
  - intros b Vb. destruct (B2 b Vb) as (Lb & Nb & Ub). split; [lia|]. split.
    + intros [?|X]; [auto|]. now destruct (new_fresh _ _ _ _ B G X) as (_ & _ & _ & ?).
    + destruct (pooled s' b) eqn:X; [|reflexivity]. apply (pooled_sub s s' b I) in X. congruence.
  - intros b X. apply (pooled_sub s s' b I) in X. apply B3 in X. lia.
  - auto.
  - intros m a Hin. destruct (W2 m a (I _ Hin)) as [Wp Wo]. split; [exact Wp|]. eapply own_keep; [| |exact Wo].
    + intros b. now apply (goes_V P).
    + cbv beta. intros b Hb. split; [assumption|]. assert (pooled s' b = true) as X' by (apply pooled_in; eauto).
      pose proof (pooled_sub s s' b I X') as X. eapply goes_keep; eauto. intros Pb. destruct (B1 b Pb). congruence.
  - intros R. rewrite (W3 R) in I. now apply incl_l_nil in I.
Qed.
Lemma base_part (P Q : nat -> Prop) s : (forall b, Q b -> P b) -> base P s -> base Q s.
Proof. intros H (B1 & B2 & B3). split; [auto|]. split; [|assumption]. intros b Vb. destruct (B2 b Vb) as (? & ? & ?). repeat split; auto. Qed.
Lemma base_later (P : nat -> Prop) s s' : base P s -> goes none s s' -> base P s'.
Proof.
  intros B G. eapply (base_part (gr P s s')); [intros b; now left|]. apply base_goes; [assumption|]. eapply goes_sub; [|exact G]. intros b _ [].
Qed.
Lemma in_below p d h : input_is p d h -> (in_arr p < length h)%nat.
Proof. intros (b & N & _). apply nth_error_Some. congruence. Qed.
Lemma ok_goes P s s' p d : ok P s p d -> goes P s s' -> ok (gr P s s') s' p d.
Proof.
  intros (B & I & A & F & Vi) G. split; [now apply base_goes|]. pose proof (in_below _ _ _ I) as L. split; [|split; [|split; [|assumption]]].
  - destruct I as (b & N & S). exists b. split; [|assumption]. rewrite (goes_keep P s s'); auto.
  - intros [?|X]; [auto|]. apply newb_iff in X as [?|X]; [lia|]. apply drew_iff in X as [? ?]. congruence.
  - destruct (pooled s' (in_arr p)) eqn:X; [|reflexivity]. destruct G as (_ & _ & Inc & _). apply (pooled_sub s s' _ Inc) in X. congruence.
Qed.
Lemma ok_part (P Q : nat -> Prop) s p d : (forall b, Q b -> P b) -> ok P s p d -> ok Q s p d.
Proof. intros H (B & I & A & Vi). split; [eapply base_part; eauto|]. split; [|split]; auto. Qed.
Lemma data_ok P s p d : ok P s p d -> data p s = Done d s.
Proof.
  intros (_ & (b & N & L & ->) & _). unfold data, acc, bytes_of, bind, load. rewrite N.
  replace (Nat.leb _ _) with true by (symmetry; apply Nat.leb_le; lia). reflexivity.
Qed.
Lemma len_ok P s p d : ok P s p d -> in_len p = length d.
Proof. intros (_ & (b & N & L & ->) & _). rewrite firstn_length, skipn_length. lia. Qed.
Lemma skipn_skipn {A} (l : list A) n m : skipn n (skipn m l) = skipn (n + m) l.
Proof. revert l. induction m as [|m IH]; intros l; [now rewrite Nat.add_0_r|]. rewrite <- plus_n_Sm. destruct l; cbn; [now rewrite skipn_nil|apply IH]. Qed.
Lemma sub_ok P s p d i j q : ok P s p d -> zslice d i j = Some q -> ok P s (sub p i j) q.
Proof.
  intros O Z. pose proof (len_ok _ _ _ _ O) as Ld. destruct O as (B & (b & N & L & E) & A & Vi). split; [assumption|]. split; [|split; assumption].
  apply zslice_inv in Z as (x & y & Ed & Lx & Lq). exists b. split; [assumption|]. cbn [sub in_arr in_off in_len].
  unfold zlen in *. assert (length d = length x + (length q + length y))%nat as LL by now rewrite Ed, !app_length.
  assert (Z.to_nat i = length x) as -> by lia. assert (Z.to_nat (j - i) = length q) as -> by lia.
  split; [lia|]. replace (in_off p + length x)%nat with (length x + in_off p)%nat by lia. rewrite <- skipn_skipn.
  rewrite <- (firstn_skipn (in_len p) (skipn (in_off p) b)), <- E, Ed, <- !app_assoc.
  rewrite skipn_app, skipn_all, Nat.sub_diag. cbn [skipn app]. rewrite firstn_app, firstn_all, Nat.sub_diag, firstn_O, app_nil_r. reflexivity.
Qed.
Lemma dbind_done {A B} (x : D A) (k : A -> D B) s a s' : x s = Done a s' -> dbind x k s = k a s'.
Proof. unfold dbind. now intros ->. Qed.
Lemma gr_refl (P : nat -> Prop) s b : P b -> gr P s s b. Proof. now left. Qed.
(** * Positions in the input *)
Lemma view_at d i : bytes_ok d = true -> small d -> 0 <= i <= zlen d -> exists rest, view d d i i rest [] /\ zlen rest = zlen d - i.
Proof.
  intros B S Hi. exists (skipn (Z.to_nat i) d). split.
  - assert (d = firstn (Z.to_nat i) d ++ skipn (Z.to_nat i) d) as E by now rewrite firstn_skipn.
    assert (i = zlen (firstn (Z.to_nat i) d)) as Ei by (unfold zlen in *; rewrite firstn_length; lia).
    repeat split; auto.
    + eauto.
    + exists (firstn (Z.to_nat i) d). rewrite app_nil_r. auto.
    + rewrite E, bytes_ok_app in B. apply andb_true_iff in B. tauto.
  - unfold zlen in *. rewrite skipn_length. lia.
Qed.
Lemma len_at b d i i1 j : bytes_ok d = true -> small d -> 0 <= i <= zlen d -> decodeLen b d i = Ok (i1, j) ->
  exists q, zslice d i1 j = Some q /\ (length q < length d)%nat /\ i < i1 <= j /\ j <= zlen d /\ bytes_ok q = true /\ small q.
Proof.
  intros B S Hi E. destruct (view_at d i B S Hi) as (rest & Vw & Lr).
  destruct (decodeLen_view b _ _ _ _ _ _ Vw) as [(l & q & s & Er & Nl & L & E1 & _ & Z1 & _)|(e & E1 & _)]; [|congruence].
  rewrite E in E1. injection E1 as -> ->. exists q. subst rest. destruct (view_payload _ _ _ _ _ _ _ _ Vw) as [Bq Sq].
  rewrite !zlen_app in Lr. assert (0 < zlen l) by (destruct l; [contradiction|rewrite zlen_cons; pose proof (zlen_nonneg l); lia]).
  pose proof (zlen_nonneg q). pose proof (zlen_nonneg s). split; [assumption|]. split; [unfold zlen in *; lia|]. repeat split; auto; lia.
Qed.
Lemma varint_at d i w j : bytes_ok d = true -> small d -> 0 <= i <= zlen d -> decodeVarint u64 0 d i = Ok (w, j) -> i < j <= zlen d.
Proof.
  intros B S Hi E. destruct (view_at d i B S Hi) as (rest & Vw & Lr).
  destruct (decodeVarint_par u64 0 _ _ _ _ _ _ conv_u64 Vw) as [(c & s & wire & Er & Nc & E1 & _)|(e & [] & E1 & _)]; [|congruence].
  rewrite E in E1. injection E1 as _ ->. subst rest. rewrite zlen_app in Lr.
  assert (0 < zlen c) by (destruct c; [contradiction|rewrite zlen_cons; pose proof (zlen_nonneg c); lia]). pose proof (zlen_nonneg s). lia.
Qed.
Lemma number_at k z0 d i z j : bytes_ok d = true -> small d -> 0 <= i <= zlen d -> decodeNumber k z0 d i = Ok (z, j) -> i < j <= zlen d.
Proof.
  intros B S Hi E. destruct (view_at d i B S Hi) as (rest & Vw & Lr).
  assert (forall c s (A : Type) (a a' : A) j', rest = c ++ s -> c <> [] -> (a, j) = (a', j') -> j' = i + zlen c -> i < j <= zlen d) as K.
  { intros c s A a a' j' Er Nc Ej ->. injection Ej as _ ->. subst rest. rewrite zlen_app in Lr.
    assert (0 < zlen c) by (destruct c; [contradiction|rewrite zlen_cons; pose proof (zlen_nonneg c); lia]). pose proof (zlen_nonneg s). lia. }
  assert (forall w a, conv_ok w -> decodeVarint w a d i = Ok (z, j) -> i < j <= zlen d) as KV.
  { intros w a C E0. destruct (decodeVarint_par w a _ _ _ _ _ _ C Vw) as [(c & s & x & Er & Nc & E1 & _)|(e & [] & E1 & _)]; [|congruence].
    rewrite E0 in E1. injection E1 as _ ->. now apply (K c s Z z z _ Er Nc eq_refl). }
  assert (forall n, 0 < Z.of_nat n < 9 -> forall x, decodeFixed n d i = Ok (x, j) -> i < j <= zlen d) as KF.
  { intros n Hn x E0. destruct (decodeFixed_par n _ _ _ _ _ _ Hn Vw) as [(c & s & y & Er & Nc & E1 & _)|(e & [] & E1 & _)]; [|congruence].
    rewrite E0 in E1. injection E1 as _ ->. now apply (K c s Z z z _ Er Nc eq_refl). }
  unfold decodeNumber in E.
  assert (forall w a g, conv_ok w -> (do r <- decodeVarint w a d i; Ok (g (fst r), snd r)) = Ok (z, j) -> i < j <= zlen d) as KV2.
  { intros w a g C E0. destruct (decodeVarint_par w a _ _ _ _ _ _ C Vw) as [(c & s & x & Er & Nc & E1 & _)|(e & [] & E1 & _)]; rewrite E1 in E0; cbn in E0; [|discriminate].
    injection E0 as _ <-. now apply (K c s Z z z _ Er Nc eq_refl). }
  destruct (classify k); try (eapply KV2; [|exact E]; apply conv_varint); try (eapply KV; [|exact E]; apply conv_varint).
  - destruct (decodeFixed 8 d i) as [[x j']| | |] eqn:E8; try discriminate. cbn in E. injection E as _ <-. eapply (KF 8%nat); [lia|exact E8].
  - destruct (decodeFixed 4 d i) as [[x j']| | |] eqn:E8; try discriminate. cbn in E. injection E as _ <-. eapply (KF 4%nat); [lia|exact E8].
Qed.

(** * Memory operations *)
Lemma nth_error_app_old {A} (l r : list A) b : (b < length l)%nat -> nth_error (l ++ r) b = nth_error l b.
Proof. apply nth_error_app1. Qed.
Definition with_heap (s : mem) (h : list obj) : mem := mkMem h (free s) (picks s).
Lemma alloc_done o s : acc (alloc o) s = Done (length (heap s)) (with_heap s (heap s ++ [o])).
Proof. reflexivity. Qed.
Lemma goes_alloc P s o : goes P s (with_heap s (heap s ++ [o])).
Proof.
  split; [cbn; rewrite app_length; lia|]. split; [|split; [apply incl_refl|auto]]. intros a La _ _. now apply nth_error_app_old.
Qed.
Lemma newb_alloc s o b : newb s (with_heap s (heap s ++ [o])) b = Nat.eqb b (length (heap s)).
Proof.
  rewrite newb_same by reflexivity. cbn [with_heap heap]. rewrite app_length. cbn [length]. destruct (Nat.eqb_spec b (length (heap s))) as [->|N].
  - apply andb_true_iff. split; [apply Nat.leb_le|apply Nat.ltb_lt]; lia.
  - apply andb_false_iff. destruct (Nat.lt_ge_cases b (length (heap s))); [left; apply Nat.leb_gt|right; apply Nat.ltb_ge]; lia.
Qed.
Lemma goes_set (P : nat -> Prop) s a o : P a -> goes P s (with_heap s (Unmarshal.list_set (heap s) a o)).
Proof.
  intros Pa. split; [cbn; rewrite list_set_length; lia|]. split; [|split; [apply incl_refl|auto]]. cbn. intros b Lb Nb _. apply nth_error_set_neq. congruence.
Qed.
Lemma store_done s a o : (a < length (heap s))%nat -> acc (Heap.store a o) s = Done tt (with_heap s (Unmarshal.list_set (heap s) a o)).
Proof. intros L. unfold acc, Heap.store. apply Nat.ltb_lt in L. now rewrite L. Qed.
Lemma at_lt (h : list obj) a o : nth_error h a = Some o -> (a < length h)%nat.
Proof. intros N. apply nth_error_Some. congruence. Qed.
Lemma dget_done a i s hs u : nth_error (heap s) a = Some (OMsg hs u) -> dget (HPtr a) i s = Done (nth i hs HNil) s.
Proof. intros N. cbn. unfold acc, Heap.get_slot, bind, load. now rewrite N. Qed.
Lemma dset_done a i x s hs u : nth_error (heap s) a = Some (OMsg hs u) ->
  dset (HPtr a) i x s = Done tt (with_heap s (Unmarshal.list_set (heap s) a (OMsg (Unmarshal.list_set hs i x) u))).
Proof. intros N. cbn. unfold acc, Heap.set_slot, bind, load. rewrite N. unfold Heap.store. pose proof (at_lt _ _ _ N) as L. apply Nat.ltb_lt in L. now rewrite L. Qed.
Lemma set_elem_done a i x s es : nth_error (heap s) a = Some (OArr es) ->
  acc (set_elem a i x) s = Done tt (with_heap s (Unmarshal.list_set (heap s) a (OArr (Unmarshal.list_set es i x)))).
Proof. intros N. unfold acc, set_elem, bind, load. rewrite N. unfold Heap.store. pose proof (at_lt _ _ _ N) as L. apply Nat.ltb_lt in L. now rewrite L. Qed.
Lemma set_at {A} (l : list A) a o o' : nth_error l a = Some o -> nth_error (Unmarshal.list_set l a o') a = Some o'.
Proof. intros N. apply nth_error_set_eq. apply nth_error_Some. congruence. Qed.

(** append of one element; [Nw]: the objects it is made of. *)
Lemma happend_sim Q (Nw : nat -> bool) s t hl old x tx : base Q s -> (forall b, Nw b = true -> (b < length (heap s))%nat /\ ~ Q b) ->
  (t = VNil \/ exists l, t = VList l) -> oslot (heap s) Q t hl old -> own (heap s) (fun b => Nw b = true) tx x ->
  exists s' v', happend grow old x s = Done v' s' /\ goes Q s s' /\ free s' = free s /\
    oslot (heap s') (plus Q (fun b => Nw b || newb s s' b)) (VList (vlist t ++ [tx])) (tl hl) v'.
Proof.
  intros (B1 & B2 & B3) BQ Ht O Ox.
  assert (forall o, forall b, plus Q (fun b => Nw b || Nat.eqb b (length (heap s))) b -> plus Q (fun b => Nw b || newb s (with_heap s (heap s ++ [o])) b) b) as Hp.
  { intros o b [Qb|Hb]; [now left|right]. now rewrite newb_alloc. }
  assert (forall b, Q b -> (b < length (heap s))%nat) as C1 by (intros b Qb; now apply B1).
  assert (forall b, V b -> (b < length (heap s))%nat) as C2 by (intros b Vb; now apply B2).
  destruct Ht as [->|[l ->]].
  - pose proof (own_slot_own _ _ _ _ _ _ _ _ _ O) as On. cbn [owns] in On. subst old. unfold happend. cbv zeta. rewrite (dbind_done _ _ _ _ _ (alloc_done _ _)). eexists _, _. split; [reflexivity|].
    split; [apply goes_alloc|]. split; [reflexivity|].
    pose proof (grow_copy pl ru unsafe V (heap s) Q Nw [] hl HNil tx x [] (Nat.max 1 (grow 1) - 1)) as G. cbn [app length] in G.
    replace (1 + (Nat.max 1 (grow 1) - 1))%nat with (Nat.max 1 (grow 1)) in G by lia. cbn [vlist app]. eapply own_slot_mono; [apply Hp|].
    cbn [with_heap heap]. apply G; auto.
  - pose proof (own_slot_own _ _ _ _ _ _ _ _ _ O) as O0. apply own_list in O0 as (a & off & cap & es & c & -> & Qa & N & L & C & F). cbn [vlist happend].
    destruct (Nat.ltb (length l) cap) eqn:Lt.
    + apply Nat.ltb_lt in Lt. rewrite (dbind_done _ _ _ _ _ (set_elem_done _ _ _ _ _ N)). eexists _, _. split; [reflexivity|]. split; [now apply goes_set|]. split; [reflexivity|].
      apply (own_slot_mono pl ru unsafe V _ (plus Q Nw)); [intros b [Qb|Hb]; [now left|right]; now rewrite Hb|].
      apply (grow_in_place pl ru unsafe V (heap s) _ Q Nw l hl a off cap es tx x); auto.
      * intros b Hb. now apply BQ.
      * cbn. eapply set_at. eassumption.
      * cbn. intros b _ Nb. apply nth_error_set_neq. congruence.
      * intros Va. now apply (B2 a Va).
    + apply Nat.ltb_ge in Lt. assert (cap = length l) as -> by lia. cbv zeta.
      assert (acc (elems_of (HSlice a off (length l) (length l))) s = Done (firstn (length l) (skipn off es)) s) as El.
      { unfold acc, elems_of, bind, load. rewrite N. replace (Nat.leb _ _) with true by (symmetry; apply Nat.leb_le; lia). reflexivity. }
      rewrite (dbind_done _ _ _ _ _ El), (dbind_done _ _ _ _ _ (alloc_done _ _)). eexists _, _. split; [reflexivity|].
      split; [apply goes_alloc|]. split; [reflexivity|]. eapply own_slot_mono; [apply Hp|]. cbn [with_heap heap].
      set (c0 := Nat.max (S (length l)) (grow (S (length l)))).
      pose proof (grow_copy pl ru unsafe V (heap s) Q Nw l hl (HSlice a off (length l) (length l)) tx x (firstn (length l) (skipn off es)) (c0 - S (length l))) as G.
      replace (S (length l) + (c0 - S (length l)))%nat with c0 in G by lia. apply G; auto.
      * right. split; [assumption|]. exists a, off, es. auto.
      * rewrite firstn_length, skipn_length. lia.
Qed.

(** append of bytes. *)
Lemma put_bytes_done a off bs s b : nth_error (heap s) a = Some (OBytes b) -> (off + length bs <= length b)%nat ->
  acc (put_bytes a off bs) s = Done tt (with_heap s (Unmarshal.list_set (heap s) a (OBytes (firstn off b ++ bs ++ skipn (off + length bs) b)))).
Proof.
  intros N L. unfold acc, put_bytes, bind, load. rewrite N. replace (Nat.leb _ _) with true by (symmetry; apply Nat.leb_le; lia).
  unfold Heap.store. pose proof (at_lt _ _ _ N) as La. apply Nat.ltb_lt in La. now rewrite La.
Qed.
Lemma firstn_skipn_len {A} (b : list A) off len : (off + len <= length b)%nat -> length (firstn len (skipn off b)) = len.
Proof. intros. rewrite firstn_length, skipn_length. lia. Qed.
Lemma happend_bytes_sim Q s b0 bs old : base Q s -> own_unk (heap s) Q b0 old ->
  exists s' v', happend_bytes grow old bs s = Done v' s' /\ goes Q s s' /\
    own_unk (heap s') (gr Q s s') (b0 ++ bs) v' /\ (v' <> HNil \/ s' = s /\ v' = HNil /\ b0 ++ bs = []).
Proof.
  intros (B1 & B2 & B3) O. destruct O as [[-> ->]|O].
  - cbn [happend_bytes app]. destruct bs as [|z bs].
    + exists s, HNil. split; [reflexivity|]. split; [apply goes_refl|]. split; [now left|]. now right.
    + set (bb := z :: bs). cbv zeta. rewrite (dbind_done _ _ _ _ _ (alloc_done _ _)). eexists _, _. split; [reflexivity|].
      split; [apply goes_alloc|]. split; [|left; discriminate]. right. cbn [owns_bytes with_heap heap].
      split; [right; rewrite newb_alloc; apply Nat.eqb_refl|]. split; [lia|]. eexists. rewrite nth_error_app2, Nat.sub_diag by lia. split; [reflexivity|].
      rewrite app_length, repeat_length. split; [|lia]. split; [rewrite app_length; lia|]. cbn [skipn]. rewrite firstn_app, firstn_all, Nat.sub_diag, firstn_O, app_nil_r. reflexivity.
  - destruct old as [| | | | |a off len cap|]; try contradiction O. cbn [owns_bytes] in O. destruct O as (Qa & Lc & b & N & [Lb E] & C).
    assert (length b0 = len) as Lb0 by (rewrite E; now apply firstn_skipn_len).
    cbn [happend_bytes]. cbv zeta. destruct (Nat.leb (len + length bs) cap) eqn:Le.
    + apply Nat.leb_le in Le. assert (off + len + length bs <= length b)%nat as LL by lia.
      rewrite (dbind_done _ _ _ _ _ (put_bytes_done _ _ _ _ _ N LL)). eexists _, _. split; [reflexivity|]. split; [now apply goes_set|].
      split; [|left; discriminate]. right. cbn [owns_bytes with_heap heap]. split; [now left|]. split; [lia|]. eexists. split; [eapply set_at; eassumption|].
      assert (length (firstn (off + len) b) = off + len)%nat as Lf by (rewrite firstn_length; lia).
      assert (length (skipn (off + len + length bs) b) = length b - (off + len + length bs))%nat as Ls by apply skipn_length.
      split; [|rewrite !app_length; lia]. split; [rewrite !app_length; lia|].
      rewrite skipn_app. rewrite Lf. replace (off - (off + len))%nat with 0%nat by lia. cbn [skipn].
      assert (skipn off (firstn (off + len) b) = b0) as ->.
      { rewrite E, firstn_skipn_comm. reflexivity. }
      rewrite app_assoc, firstn_app, firstn_all2 by (rewrite app_length; lia). rewrite app_length, Lb0, Nat.sub_diag, firstn_O, app_nil_r. reflexivity.
    + apply Nat.leb_gt in Le.
      assert (acc (bytes_of (HSlice a off len cap)) s = Done b0 s) as Eb.
      { unfold acc, bytes_of, bind, load. rewrite N. replace (Nat.leb _ _) with true by (symmetry; apply Nat.leb_le; lia). now rewrite <- E. }
      rewrite (dbind_done _ _ _ _ _ Eb), (dbind_done _ _ _ _ _ (alloc_done _ _)). eexists _, _. split; [reflexivity|].
      split; [apply goes_alloc|]. split; [|left; discriminate]. right. cbn [owns_bytes with_heap heap].
      split; [right; rewrite newb_alloc; apply Nat.eqb_refl|]. split; [lia|]. eexists. rewrite nth_error_app2, Nat.sub_diag by lia. split; [reflexivity|].
      rewrite !app_length, repeat_length. split; [|lia]. split; [rewrite !app_length; lia|]. cbn [skipn].
      rewrite app_assoc, firstn_app, firstn_all2 by (rewrite app_length; lia). rewrite app_length, Lb0, Nat.sub_diag, firstn_O, app_nil_r. reflexivity.
Qed.

(** * Members of the receiver *)
Lemma own_later (Q : nat -> Prop) s s1 t v : base Q s -> goes none s s1 -> own (heap s) Q t v -> own (heap s1) Q t v.
Proof.
  intros B G O. eapply own_keep; [| |exact O].
  - intros b Vb. eapply (goes_V none); eauto. eapply base_part; [|exact B]. intros ? [].
  - intros b Qb. split; [assumption|]. destruct B as (B1 & _). destruct (B1 b Qb). eapply goes_keep; eauto.
Qed.
Lemma own_slot_later (Q : nat -> Prop) s s1 t hl v : base Q s -> goes none s s1 -> oslot (heap s) Q t hl v -> oslot (heap s1) Q t hl v.
Proof.
  intros B G O. eapply own_slot_keep; [| |exact O].
  - intros b Vb. eapply (goes_V none); eauto. eapply base_part; [|exact B]. intros ? [].
  - intros b Qb. split; [assumption|]. destruct B as (B1 & _). destruct (B1 b Qb). eapply goes_keep; eauto.
Qed.
Lemma goes_none (P : nat -> Prop) s s' : goes none s s' -> goes P s s'.
Proof. apply goes_sub. intros b _ []. Qed.
Lemma clean_other h P t x n : own h P t x -> (forall l, t <> VList l) -> clean pl h x n.
Proof.
  intros O Nl Hp j b _. destruct x as [| | | | |a off len cap|]; try discriminate. cbn [spare_at]. destruct (Nat.ltb _ _); [|discriminate].
  destruct t; cbn [owns] in O; try discriminate O; try contradiction.
  - destruct O as [(_ & _ & bb & -> & _)|(_ & _ & bb & -> & _)]; discriminate.
  - destruct O as (? & ? & E & _). discriminate E.
  - now destruct (Nl l).
  - destruct O as (? & ? & ? & E & _). discriminate E.
  - destruct O as (? & ? & E & _). discriminate E.
  - destruct O as (_ & ? & ? & ? & ? & ? & E & _). discriminate E.
Qed.
Lemma slot_other h P t x : own h P t x -> (forall l, t <> VList l) -> oslot h P t [] x.
Proof. intros O Nl. apply own_slot_nil. split; [assumption|]. eapply clean_other; eauto. Qed.
(** What waits in spare capacity may change for the member [i] only. *)
Definition rest_of (hid hid' : list (list val)) (i : nat) : Prop := hid' = hid \/ exists l, hid' = Unmarshal.list_set hid i l.
Lemma slot_write P s ss unk hid v i : base P s -> own (heap s) P (VMsg ss unk hid) v -> (i < length ss)%nat ->
  exists a hs u (Q : nat -> Prop), v = HPtr a /\ (ru = false -> hid = []) /\ (i < length hs)%nat /\ (forall b, Q b -> P b /\ b <> a) /\
    nth_error (heap s) a = Some (OMsg hs u) /\ oslot (heap s) Q (slot ss i) (nth i hid []) (nth i hs HNil) /\
    (forall s2, goes Q s s2 -> nth_error (heap s2) a = Some (OMsg hs u)) /\
    (forall s2 t hid' x, goes Q s s2 -> rest_of hid hid' i -> oslot (heap s2) (gr Q s s2) t (nth i hid' []) x ->
       exists s', dset v i x s2 = Done tt s' /\ heap s' = Unmarshal.list_set (heap s2) a (OMsg (Unmarshal.list_set hs i x) u) /\ free s' = free s2 /\ goes P s s' /\
         own (heap s') (gr P s s') (VMsg (Unmarshal.list_set ss i t) unk hid') v) /\
    (forall s2 t hid', goes Q s s2 -> rest_of hid hid' i -> oslot (heap s2) (gr Q s s2) t (nth i hid' []) (nth i hs HNil) ->
       goes P s s2 /\ own (heap s2) (gr P s s2) (VMsg (Unmarshal.list_set ss i t) unk hid') v).
Proof.
  intros B O Li. pose proof B as (B1 & B2 & B3). destruct (slot_focus pl ru unsafe V _ _ _ _ _ _ _ O Li) as (a & hs & u & Q & -> & Pa & N & Lh & Hh & Hl & HQ & Os & Fin).
  exists a, hs, u, Q. do 6 (split; [auto|]). destruct (B1 a Pa) as [La Ua].
  assert (~ Q a) as Na by (intros H; now apply HQ in H).
  assert (forall b, Q b -> P b) as QP by (intros b Qb; now apply HQ).
  assert (forall s2, goes Q s s2 -> nth_error (heap s2) a = Some (OMsg hs u)) as Keep.
  { intros s2 G. rewrite (goes_keep Q s s2); auto. }
  assert (forall s2, goes Q s s2 -> goes P s s2) as GP by (intros s2 G; eapply goes_sub; [|exact G]; auto).
  assert (forall s2 b, goes Q s s2 -> newb s s2 b = true -> ~ P b) as Fp by (intros s2 b G X; now destruct (new_fresh _ _ _ _ B (GP _ G) X) as (_ & _ & ? & _)).
  assert (forall hid', rest_of hid hid' i -> (ru = false -> hid' = []) /\ (length hid' <= length ss)%nat /\ forall j, j <> i -> nth j hid' [] = nth j hid []) as Hr.
  { intros hid' [->|[l ->]]; [auto|]. split; [intros R; now rewrite (Hh R)|]. rewrite list_set_length. split; [assumption|]. intros j Nj. apply nth_list_set_neq. congruence. }
  split; [exact Keep|]. split.
  - intros s2 t hid' x G Rh Ox. destruct (Hr _ Rh) as (R1 & R2 & R3). eexists. split; [apply dset_done; now apply Keep|]. cbn [with_heap heap]. split; [reflexivity|]. split; [reflexivity|].
    pose proof (Keep _ G) as N2. pose proof G as (L2 & E2 & I2 & D2). set (s' := with_heap s2 _).
    assert (forall b, newb s s' b = newb s s2 b) as Eb.
    { intros b. unfold newb, drew, pooled. cbn [s' with_heap heap free]. now rewrite list_set_length. }
    split.
    + split; [cbn [s' with_heap heap]; now rewrite list_set_length|]. split; [|split; assumption]. cbn [s' with_heap heap]. intros b Lb Nb Db.
      rewrite nth_error_set_neq by congruence. apply E2; auto.
    + cbn [s' with_heap heap]. eapply own_mono; [|eapply (Fin _ (newb s s2) _ _ x); eauto].
      * intros b [Pb|Hb]; [now left|right]. now rewrite Eb.
      * eapply set_at; eassumption.
      * intros b Pb Nb Qb. rewrite nth_error_set_neq by congruence. destruct (B1 b Pb). eapply goes_keep; eauto.
      * intros b Vb. destruct (B2 b Vb) as (? & ? & ?). rewrite nth_error_set_neq by congruence. eapply goes_keep; eauto.
      * eapply own_slot_keep; [| |exact Ox].
        -- intros b Vb. destruct (B2 b Vb) as (? & ? & ?). apply nth_error_set_neq. congruence.
        -- intros b Hb. split; [exact Hb|]. apply nth_error_set_neq. intros <-. destruct Hb as [Hb|Hb]; [auto|]. now apply (Fp s2 a G Hb).
  - intros s2 t hid' G Rh Ox. destruct (Hr _ Rh) as (R1 & R2 & R3). split; [auto|].
    eapply (Fin _ (newb s s2) _ _ (nth i hs HNil)); eauto.
    + rewrite list_set_same by assumption. now apply Keep.
    + intros b Pb Nb Qb. destruct (B1 b Pb). eapply goes_keep; eauto.
    + intros b Vb. eapply (goes_V P); eauto.
Qed.

Lemma none_trans s s1 s2 : goes none s s1 -> goes none s1 s2 -> goes none s s2.
Proof. intros G H. eapply goes_trans; [exact G|]. eapply goes_sub; [|exact H]. intros b _ []. Qed.
Lemma base_since s0 s : base none s0 -> goes none s0 s -> base (since s0 s) s.
Proof. intros B G. eapply base_part; [|apply (base_goes none s0 s); assumption]. intros b Hb. now right. Qed.
Lemma base_none P s : base P s -> base none s.
Proof. apply base_part. intros b []. Qed.
Lemma own_since s0 s s' t v : base none s0 -> goes none s0 s -> goes none s s' -> own (heap s) (since s0 s) t v -> own (heap s') (since s0 s') t v.
Proof.
  intros B G0 G O. eapply own_mono; [|eapply (own_later (since s0 s)); [now apply base_since|exact G|exact O]].
  intros b Hb. eapply newb_left; eauto.
Qed.
(** A pointer to a copy, the wrapper of a oneof. *)
Lemma own_box s0 s1 t x o hx : base none s0 -> goes none s0 s1 -> own (heap s1) (since s0 s1) x hx ->
  (t = VPtr x /\ o = OCell hx) \/ (exists n, t = VOneof n x /\ o = OWrap n hx) ->
  own (heap s1 ++ [o]) (since s0 (with_heap s1 (heap s1 ++ [o]))) t (HPtr (length (heap s1))).
Proof.
  intros B G O H. set (s2 := with_heap s1 (heap s1 ++ [o])). pose proof (goes_alloc none s1 o) as Ga. fold s2 in Ga.
  assert (since s0 s2 (length (heap s1))) as Hn.
  { eapply newb_right; [exact G|]. unfold s2. rewrite newb_alloc. apply Nat.eqb_refl. }
  assert (nth_error (heap s1 ++ [o]) (length (heap s1)) = Some o) as Nn by (rewrite nth_error_app2, Nat.sub_diag by lia; reflexivity).
  assert (own (heap s1 ++ [o]) (fun b => since s0 s2 b /\ b <> length (heap s1)) x hx) as O2.
  { destruct (base_since _ _ B G) as (B1 & B2 & _). eapply own_keep; [| |exact O]; cbv beta.
    - intros b Vb. apply nth_error_app_old. now apply B2.
    - intros b Hb. assert (b < length (heap s1))%nat by now apply B1. split; [|now apply nth_error_app_old]. split; [eapply newb_left; eauto|lia]. }
  destruct H as [[-> ->]|(n & -> & ->)]; cbn [owns]; exists (length (heap s1)), hx; auto.
Qed.

Lemma hstore_sim P f lbl k s0 s1 v ss u h t' x hx : base P s0 -> (f_slot f < length ss)%nat -> nth (f_slot f) h [] = [] ->
  (forall p, lbl = LRepeated p -> slot ss (f_slot f) = VNil \/ exists l, slot ss (f_slot f) = VList l) ->
  own (heap s0) P (VMsg ss u h) v -> goes none s0 s1 -> own (heap s1) (since s0 s1) x hx -> (forall l, x <> VList l) ->
  (k = KBytes -> lbl = LOneof \/ exists p, lbl = LRepeated p) -> store f lbl k x (VMsg ss u h) = Some t' ->
  exists s', hstore grow f lbl hx v s1 = Done tt s' /\ goes P s0 s' /\ own (heap s') (gr P s0 s') t' v.
Proof.
  intros B Li Hh Sl O G Ox Nl Kb E. pose proof (base_none _ _ B) as Bn.
  destruct (slot_write P s0 ss u h v (f_slot f) B O Li) as (a & hs & w & Q & -> & _ & Lh & HQ & N & Os & Keep & Wr & _). rewrite Hh in Os.
  assert (base Q s0) as BQ by (eapply base_part; [|exact B]; intros b Qb; now apply HQ).
  pose proof (goes_none Q _ _ G) as GQ.
  assert (forall t o, (t = VPtr x /\ o = OCell hx) \/ (exists n, t = VOneof n x /\ o = OWrap n hx) ->
    exists s', dset (HPtr a) (f_slot f) (HPtr (length (heap s1))) (with_heap s1 (heap s1 ++ [o])) = Done tt s' /\ goes P s0 s' /\ own (heap s') (gr P s0 s') (VMsg (list_set ss (f_slot f) t) u h) (HPtr a)) as Box.
  { intros t o Ht. assert (goes none s0 (with_heap s1 (heap s1 ++ [o]))) as G2 by (eapply none_trans; [exact G|apply goes_alloc]).
    destruct (Wr _ t h (HPtr (length (heap s1))) (goes_none Q _ _ G2) (or_introl eq_refl)) as (s' & E' & _ & _ & G' & O'); [|eauto].
    rewrite Hh. apply slot_other; [|destruct Ht as [[-> _]|(n & -> & _)]; discriminate].
    eapply own_mono; [|eapply own_box; eauto]. intros b Hb. now right. }
  unfold store in E. cbn [set_slot get_slot] in E. destruct lbl as [| | |p|]; cbn [hstore].
  - injection E as <-. destruct (Wr s1 x h hx GQ (or_introl eq_refl)) as (s' & E' & _ & _ & G' & O'); [|eauto]. rewrite Hh. apply slot_other; [|assumption].
    eapply own_mono; [|exact Ox]. intros b Hb. now right.
  - injection E as <-. rewrite (dbind_done _ _ _ _ _ (alloc_done _ _)).
    assert (classify k <> CByt) as Nk.
    { intros C. destruct k; try discriminate C. destruct (Kb eq_refl) as [?|[? ?]]; discriminate. }
    replace (match classify k with CByt => x | _ => VPtr x end) with (VPtr x) by (destruct (classify k); congruence). apply Box. auto.
  - injection E as <-. rewrite (dbind_done _ _ _ _ _ (alloc_done _ _)).
    assert (classify k <> CByt) as Nk.
    { intros C. destruct k; try discriminate C. destruct (Kb eq_refl) as [?|[? ?]]; discriminate. }
    replace (match classify k with CByt => x | _ => VPtr x end) with (VPtr x) by (destruct (classify k); congruence). apply Box. auto.
  - injection E as <-. rewrite (dbind_done _ _ _ _ _ (dget_done _ _ _ _ _ (Keep _ GQ))).
    assert (base Q s1) as BQ1 by (eapply base_later; eauto).
    destruct (happend_sim Q (newb s0 s1) s1 (slot ss (f_slot f)) [] (nth (f_slot f) hs HNil) hx x BQ1) as (s2 & v2 & E2 & G2 & _ & O2); auto.
    + intros b Hb. now destruct (new_fresh _ _ _ _ BQ GQ Hb) as (? & _ & ? & _).
    + eapply Sl. reflexivity.
    + eapply own_slot_later; [exact BQ|exact G|exact Os].
    + rewrite (dbind_done _ _ _ _ _ E2).
      destruct (Wr s2 (VList (vlist (slot ss (f_slot f)) ++ [x])) h v2) as (s' & E' & _ & _ & G' & O'); [|now left| |eauto].
      * eapply goes_trans; [exact GQ|]. eapply goes_sub; [|exact G2]. intros b _ Qb. now left.
      * rewrite Hh. eapply own_slot_mono; [|exact O2]. intros b [Qb|Hb]; [now left|right]. apply orb_true_iff in Hb as [Hb|Hb]; [eapply newb_left; eauto|eapply newb_right; eauto].
  - injection E as <-. rewrite (dbind_done _ _ _ _ _ (alloc_done _ _)). apply Box. right. eauto.
Qed.

(** Strings and byte slices copied from the input. *)
Lemma hstring_sim P s p d i j q : ok P s p d -> zslice d i j = Some q -> exists x, hstring unsafe p i j s = Done x s /\ forall R, own (heap s) R (VStr q) x.
Proof.
  intros O Z. pose proof (sub_ok _ _ _ _ _ _ _ O Z) as Os. unfold hstring. destruct (bool_dec unsafe true) as [Eu|Eu].
  - rewrite Eu. eexists. split; [reflexivity|]. intros R. cbn [owns]. pose proof (zslice_inv _ _ _ _ Z) as (zx & zy & _ & _ & Lq). destruct (j <=? i) eqn:Ej.
    + destruct q; [reflexivity|]. unfold zlen in Lq. cbn [length] in Lq. lia.
    + destruct Os as (_ & (b & N & Sb) & _ & _ & Vi). cbn [reads_string]. split; [now apply Vi|]. exists b. split; [exact N|exact Sb].
  - apply not_true_is_false in Eu. rewrite Eu. rewrite (dbind_done _ _ _ _ _ (data_ok _ _ _ _ Os)). exists (HStr q). split; [reflexivity|]. intros R. reflexivity.
Qed.
Lemma hbytes_sim P s p d i j q : ok P s p d -> zslice d i j = Some q ->
  exists s' x, hbytes unsafe p i j s = Done x s' /\ goes none s s' /\ own (heap s') (since s s') (VBytes q) x.
Proof.
  intros O Z. unfold hbytes. cbv zeta. destruct (bool_dec unsafe true) as [Eu|Eu].
  { rewrite Eu. eexists _, _. split; [reflexivity|]. split; [apply goes_refl|]. cbn [owns]. right. split; [reflexivity|].
    destruct (sub_ok _ _ _ _ _ _ _ O Z) as (_ & (b & N & Sb) & _ & _ & Vi). split; [now apply Vi|]. exists b. split; [exact N|exact Sb]. }
  apply not_true_is_false in Eu. rewrite Eu. rewrite (dbind_done _ _ _ _ _ (data_ok _ _ _ _ (sub_ok _ _ _ _ _ _ _ O Z))).
  unfold make_copy. rewrite (dbind_done _ _ _ _ _ (alloc_done _ _)). eexists _, _. split; [reflexivity|]. split; [apply goes_alloc|].
  left. cbn [owns owns_bytes with_heap heap]. split; [unfold since; rewrite newb_alloc; apply Nat.eqb_refl|]. split; [lia|].
  exists q. rewrite nth_error_app2, Nat.sub_diag by lia. split; [reflexivity|]. split; [apply slice_all|lia].
Qed.
Lemma bytes_item_sim P f lbl s p d i j q v ss u h t' : ok P s p d -> (f_slot f < length ss)%nat -> nth (f_slot f) h [] = [] ->
  (forall p, lbl = LRepeated p -> slot ss (f_slot f) = VNil \/ exists l, slot ss (f_slot f) = VList l) ->
  (lbl <> LOneof -> (forall p, lbl <> LRepeated p) -> slot ss (f_slot f) = VNil \/ exists b, slot ss (f_slot f) = VBytes b) ->
  own (heap s) P (VMsg ss u h) v -> zslice d i j = Some q -> store f lbl KBytes (VBytes q) (VMsg ss u h) = Some t' ->
  exists s', bytes_item unsafe grow f lbl p i j v s = Done tt s' /\ goes P s s' /\ own (heap s') (gr P s s') t' v.
Proof.
  intros K Li Hh Sl Sb O Z E. pose proof K as (B & _ & _).
  assert ((lbl = LOneof \/ exists p0, lbl = LRepeated p0) -> exists s', dbind (hbytes unsafe p i j) (fun x => hstore grow f lbl x v) s = Done tt s' /\ goes P s s' /\ own (heap s') (gr P s s') t' v) as Two.
  { intros Hl. destruct (hbytes_sim _ _ _ _ _ _ _ K Z) as (s1 & x & E1 & G1 & O1). rewrite (dbind_done _ _ _ _ _ E1). eapply hstore_sim; eauto. discriminate. }
  assert (lbl <> LOneof -> (forall p0, lbl <> LRepeated p0) -> t' = VMsg (Unmarshal.list_set ss (f_slot f) (VBytes q)) u h /\
     exists s', (if unsafe then dec! x := hbytes unsafe p i j in dset v (f_slot f) x else
        dec! old := dget v (f_slot f) in
        dec! e := cut0 old in
        dec! bs := data (sub p i j) in
        dec! x := happend_bytes grow e bs in
        match x with
        | HNil => dec! a := acc (alloc (OBytes [])) in dset v (f_slot f) (HSlice a 0 0 0)
        | _ => dset v (f_slot f) x
        end) s = Done tt s' /\ goes P s s' /\ own (heap s') (gr P s s') (VMsg (Unmarshal.list_set ss (f_slot f) (VBytes q)) u h) v) as One.
  { intros N1 N2. split; [unfold store in E; cbn [set_slot get_slot classify] in E; destruct lbl; congruence|].
    destruct (slot_write P s ss u h v (f_slot f) B O Li) as (a & hs & w & Q & -> & _ & Lh & HQ & N & Os & Keep & Wr & _). rewrite Hh in Os. apply own_slot_own in Os.
    assert (base Q s) as BQ by (eapply base_part; [|exact B]; intros b Qb; now apply HQ).
    assert (forall s1 x, goes Q s s1 -> own (heap s1) (gr Q s s1) (VBytes q) x -> exists s', dset (HPtr a) (f_slot f) x s1 = Done tt s' /\ goes P s s' /\
       own (heap s') (gr P s s') (VMsg (Unmarshal.list_set ss (f_slot f) (VBytes q)) u h) (HPtr a)) as Put.
    { intros s1 x G1 O1. destruct (Wr s1 (VBytes q) h x G1 (or_introl eq_refl)) as (s' & E' & _ & _ & G' & O'); [|eauto]. rewrite Hh. now apply slot_other. }
    destruct (bool_dec unsafe true) as [Eu|Eu].
    { destruct (hbytes_sim _ _ _ _ _ _ _ K Z) as (s1 & x & E1 & G1 & O1).
      destruct (Put s1 x (goes_none _ _ _ G1)) as (s' & E' & G' & O'); [eapply own_mono; [|exact O1]; intros b Hb; now right|].
      exists s'. split; [|auto]. replace (if unsafe then _ else _) with (dbind (hbytes unsafe p i j) (fun x => dset (HPtr a) (f_slot f) x)) by now rewrite Eu.
      now rewrite (dbind_done _ _ _ _ _ E1). }
    apply not_true_is_false in Eu.
    match goal with |- exists s', (if unsafe then _ else ?k) s = _ /\ _ => replace (if unsafe then _ else k) with k by now rewrite Eu end.
    rewrite (dbind_done _ _ _ _ _ (dget_done _ _ _ _ _ N)).
    assert (exists e, cut0 (nth (f_slot f) hs HNil) s = Done e s /\ own_unk (heap s) Q [] e) as (e & Ee & Oe).
    { destruct (Sb N1 N2) as [X|[b X]]; rewrite X in Os; cbn [owns] in Os.
      - rewrite Os. exists HNil. split; [reflexivity|]. now left.
      - destruct Os as [Os|[Eu' _]]; [|congruence]. destruct (nth (f_slot f) hs HNil) as [| | | | |a0 off len cap|]; try contradiction Os. exists (HSlice a0 off 0 cap). split; [reflexivity|]. right.
        destruct Os as (Qa & Lc & b1 & Nb & [Lb Eb] & Cb). split; [assumption|]. split; [lia|]. exists b1. split; [assumption|]. split; [|assumption]. split; [lia|reflexivity]. }
    rewrite (dbind_done _ _ _ _ _ Ee), (dbind_done _ _ _ _ _ (data_ok _ _ _ _ (sub_ok _ _ _ _ _ _ _ K Z))).
    destruct (happend_bytes_sim Q s [] q e BQ Oe) as (s1 & x & E1 & G1 & O1 & Hx). rewrite (dbind_done _ _ _ _ _ E1). cbn [app] in *.
    destruct Hx as [Nx|(-> & -> & ->)].
    - assert (own (heap s1) (gr Q s s1) (VBytes q) x) as Ox by (destruct O1 as [[? _]|O1]; [contradiction|left; exact O1]).
      destruct (Put s1 x G1 Ox) as (s' & E' & G' & O'). exists s'. split; [|auto]. destruct x; try exact E'. congruence.
    - rewrite (dbind_done _ _ _ _ _ (alloc_done _ _)). apply Put; [apply goes_alloc|].
      cbn [owns owns_bytes with_heap heap]. left. split; [right; rewrite newb_alloc; apply Nat.eqb_refl|]. split; [lia|].
      exists []. rewrite nth_error_app2, Nat.sub_diag by lia. split; [reflexivity|]. split; [split; [cbn; lia|reflexivity]|cbn; lia]. }
  destruct lbl as [| | |p0|]; cbn [bytes_item]; try (destruct One as [-> One]; try discriminate; exact One); apply Two; eauto.
Qed.

Lemma zero_own h P md i : own h P (zero_slot md i) (hzero_slot md i).
Proof.
  unfold zero_slot, hzero_slot. destruct (find _ _) as [f|]; [|reflexivity]. unfold zero_of, hzero_of.
  destruct (f_ty f) as [[| | |p|] k|kk vk]; try reflexivity. destruct (classify k); reflexivity.
Qed.
Lemma clean_zero h md i : clean pl h (hzero_slot md i) 0.
Proof.
  intros Hp j b _. unfold hzero_slot. destruct (find _ _) as [f|]; [|discriminate]. unfold hzero_of. destruct (f_ty f) as [[| | |p|] k|kk vk]; try discriminate. destruct (classify k); discriminate.
Qed.
Lemma own_obj h (P : nat -> Prop) md a : P a -> nth_error h a = Some (new_obj md) -> own h P (new_msg md) (HPtr a).
Proof.
  intros Ph Nh. apply own_msg. split; [reflexivity|]. exists a, (map (hzero_slot md) (seq 0 (md_nslots md))), HNil, (fun _ => 0%nat).
  split; [reflexivity|]. split; [assumption|]. split; [exact Nh|]. split; [now left|].
  unfold zero_slots. rewrite !map_length, seq_length. split; [reflexivity|]. split; [cbn; lia|]. intros j Lj.
  unfold slot. rewrite (nth_indep _ VNil (zero_slot md 0)) by (rewrite map_length, seq_length; assumption).
  rewrite (nth_indep _ HNil (hzero_slot md 0)) by (rewrite map_length, seq_length; assumption). rewrite !map_nth, seq_nth by assumption.
  replace (nth j (@nil (list val)) []) with (@nil val) by now destruct j. apply own_slot_nil. split; [apply zero_own|apply clean_zero].
Qed.
Lemma own_new h (P : nat -> Prop) md : P (length h) -> own (h ++ [new_obj md]) P (new_msg md) (HPtr (length h)).
Proof. intros Ph. apply own_obj; [assumption|]. rewrite nth_error_app2, Nat.sub_diag by lia. reflexivity. Qed.

(** * Maps *)
Lemma key_now s k hk : owns_key V (heap s) k hk -> key_of hk s = Some (k, s).
Proof.
  destruct k; cbn [owns_key]; try contradiction.
  - intros ->. reflexivity.
  - destruct hk; cbn [reads_string]; try contradiction.
    + intros ->. reflexivity.
    + intros (_ & b & N & L & ->). cbn [key_of]. unfold bind, load. rewrite N. replace (Nat.leb _ _) with true by (symmetry; apply Nat.leb_le; lia). reflexivity.
Qed.
Lemma key_same h k k' hk hk' : owns_key V h k hk -> owns_key V h k' hk' -> key_eqb k k' = true -> k = k'.
Proof.
  destruct k, k'; cbn [owns_key key_eqb]; try contradiction; try discriminate.
  - intros _ _ E. f_equal. lia.
  - intros _ _. destruct (list_eq_dec Z.eq_dec s s0); [congruence|discriminate].
Qed.
Definition placed h (l l' : list (val * val)) (es es' : list (hval * hval)) (idx : nat) (tx : val) (x : hval) : Prop :=
  length es' = length l' /\
  forall j t e, nth_error l' j = Some t -> nth_error es' j = Some e ->
    (j = idx /\ snd t = tx /\ snd e = x /\ owns_key V h (fst t) (fst e)) \/ (j <> idx /\ nth_error l j = Some t /\ nth_error es j = Some e).
Lemma entries_set_sim s k hk tx x : owns_key V (heap s) k hk -> forall l es, length es = length l ->
  (forall j t e, nth_error l j = Some t -> nth_error es j = Some e -> owns_key V (heap s) (fst t) (fst e)) ->
  exists es' idx, entries_set es k hk x s = Some (es', s) /\ placed (heap s) l (map_set l k tx) es es' idx tx x.
Proof.
  intros Hk. induction l as [|[k' x'] l IH]; intros [|[hk' hx'] es] L H; try discriminate L; cbn [entries_set map_set].
  - exists [(hk, x)], 0%nat. split; [reflexivity|]. split; [reflexivity|]. intros [|[|j]] t e; cbn; try discriminate. intros [= <-] [= <-]. left. auto.
  - pose proof (H 0%nat _ _ eq_refl eq_refl) as K'. cbn [fst] in K'. unfold bind. rewrite (key_now _ _ _ K').
    destruct (key_eqb k k') eqn:E.
    + eexists _, 0%nat. split; [reflexivity|]. split; [cbn in *; lia|]. pose proof (key_same _ _ _ _ _ Hk K' E) as Ek.
      intros [|j] t e; cbn [nth_error]; intros E1 E2.
      * injection E1 as <-. injection E2 as <-. left. cbn. rewrite <- Ek. auto.
      * right. auto.
    + destruct (IH es) as (es' & idx & E1 & L1 & P1); [cbn in L; lia|intros j t e E1 E2; exact (H (S j) t e E1 E2)|]. rewrite E1.
      eexists _, (S idx). split; [reflexivity|]. split; [cbn in *; lia|]. intros [|j] t e; cbn [nth_error]; intros E2 E3.
      * injection E2 as <-. injection E3 as <-. right. auto.
      * destruct (P1 j t e E2 E3) as [(-> & ?)|(? & ?)]; [left|right]; auto.
Qed.
Lemma map_assign_sim Q (Nw : nat -> bool) s l v k hk tx x : base Q s -> (forall b, Nw b = true -> ~ Q b) ->
  own (heap s) Q (VMap l) v -> owns_key V (heap s) k hk -> own (heap s) (fun b => Nw b = true) tx x ->
  exists s', acc (map_assign v hk x) s = Done tt s' /\ goes Q s s' /\ free s' = free s /\ length (heap s') = length (heap s) /\
    own (heap s') (plus Q Nw) (VMap (map_set l k tx)) v.
Proof.
  intros (B1 & B2 & B3) BQ O Hk Ox. apply own_map in O as (a & es & c & -> & Qa & N & Le & F).
  destruct (entries_set_sim s k hk tx x Hk l es Le) as (es' & idx & E & L' & Pl).
  { intros j t e E1 E2. apply (F j t e E1 E2). }
  pose proof (at_lt _ _ _ N) as La.
  exists (with_heap s (Unmarshal.list_set (heap s) a (OMap es'))). split.
  { unfold acc, map_assign, bind, load. rewrite N, (key_now _ _ _ Hk), E. unfold Heap.store. pose proof La as La'. apply Nat.ltb_lt in La'. now rewrite La'. }
  split; [now apply goes_set|]. split; [reflexivity|]. cbn [with_heap heap]. split; [apply list_set_length|].
  assert (forall b, b <> a -> nth_error (Unmarshal.list_set (heap s) a (OMap es')) b = nth_error (heap s) b) as Fr.
  { intros b Nb. apply nth_error_set_neq. congruence. }
  assert (forall b, V b -> nth_error (Unmarshal.list_set (heap s) a (OMap es')) b = nth_error (heap s) b) as HV.
  { intros b Vb. apply Fr. intros ->. now apply (B2 a Vb). }
  apply own_map. exists a, es', (recolor Nw idx c). split; [reflexivity|]. split; [now left|].
  split; [eapply set_at; eassumption|]. split; [assumption|]. intros j t e E1 E2.
  destruct (Pl j t e E1 E2) as [(-> & H1 & H2 & K)|(Nj & E3 & E4)].
  - split; [eapply key_keep; [exact HV|exact K]|]. rewrite H1, H2. eapply own_keep; [exact HV| |exact Ox]. cbv beta. intros b Hb. split; [now apply new_color|]. apply Fr.
    intros ->. now apply BQ in Hb.
  - destruct (F j t e E3 E4) as [K1 K2]. split; [eapply key_keep; [exact HV|exact K1]|]. eapply own_keep; [exact HV| |exact K2]. cbv beta. intros b Hb.
    split; [now apply old_color|]. apply Fr. now destruct Hb as (_ & ? & _).
Qed.
Lemma own_key h P k hk : (exists z, k = VInt z) \/ (exists q, k = VStr q) -> own h P k hk -> owns_key V h k hk.
Proof. intros [[z ->]|[q ->]] O; exact O. Qed.
Lemma zero_sim h P k : own h P (map_zero k) (hmap_zero k).
Proof. unfold map_zero, hmap_zero. destruct (classify k); reflexivity. Qed.

(** A packed list: the array for its elements. *)
Lemma count_nil k : element_count k [] = 0%nat.
Proof. destruct k; reflexivity. Qed.
Lemma prealloc_sim P md f k bs s ss u h v : base P s -> (f_slot f < length ss)%nat -> nth (f_slot f) h [] = [] ->
  (slot ss (f_slot f) = VNil \/ exists l, slot ss (f_slot f) = VList l) -> own (heap s) P (VMsg ss u h) v ->
  exists s1 x, prealloc md f k bs v s = Done tt s1 /\ goes P s s1 /\ free s1 = free s /\ own (heap s1) (gr P s s1) (VMsg (list_set ss (f_slot f) x) u h) v /\
    (x = slot ss (f_slot f) \/ slot ss (f_slot f) = VNil /\ x = VList [] /\ bs <> []).
Proof.
  intros B Li Hh Sl O.
  destruct (slot_write P s ss u h v (f_slot f) B O Li) as (a & hs & w & Q & -> & _ & Lh & HQ & Na & Os & Keep & Wr & Nw). rewrite Hh in *.
  unfold prealloc. cbv zeta. rewrite (dbind_done _ _ _ _ _ (dget_done _ _ _ _ _ Na)). set (old := nth (f_slot f) hs HNil) in *.
  destruct (_ && _ && _) eqn:C.
  - apply andb_true_iff in C as [C _]. apply andb_true_iff in C as [C1 C2]. apply negb_true_iff, Nat.eqb_neq in C1. apply Nat.eqb_eq in C2.
    rewrite (dbind_done _ _ _ _ _ (alloc_done _ _)). set (n := element_count k bs) in *.
    destruct (Wr _ (VList []) h (HSlice (length (heap s)) 0 0 n) (goes_alloc Q s (OArr (repeat HNil n))) (or_introl eq_refl)) as (s' & E' & _ & F' & G' & O').
    { rewrite Hh. apply own_slot_nil. cbn [with_heap heap]. split.
      - apply own_list. exists (length (heap s)), 0%nat, n, (repeat HNil n), (fun _ => 0%nat). cbn [length]. split; [reflexivity|].
        split; [right; rewrite newb_alloc; apply Nat.eqb_refl|]. split; [rewrite nth_error_app2, Nat.sub_diag by lia; reflexivity|].
        split; [lia|]. rewrite repeat_length. split; [lia|]. intros [|j]; discriminate.
      - intros _ j b _. cbn [spare_at]. rewrite nth_error_app2, Nat.sub_diag by lia. cbn [nth_error]. rewrite nth_repeat. now destruct (Nat.ltb _ _). }
    exists s', (VList []). split; [exact E'|]. split; [assumption|]. split; [now rewrite F'|]. split; [assumption|].
    destruct Sl as [X|[l X]]; rewrite X in *.
    + right. split; [reflexivity|]. split; [reflexivity|]. intros ->. apply C1. apply count_nil.
    + left. apply own_slot_own in Os. apply own_list in Os as (aa & off & cap & es & c & Ea & _). rewrite Ea in C2. cbn [hlen] in C2. destruct l; [reflexivity|discriminate C2].
  - exists s, (slot ss (f_slot f)). split; [reflexivity|]. split; [apply goes_refl|]. split; [reflexivity|]. split; [|now left].
    apply (Nw s); [apply goes_refl|now left|]. rewrite Hh. eapply own_slot_mono; [|exact Os]. intros b Qb. now left.
Qed.

Lemma list_set_comm {A} (l : list A) i j (x y : A) : i <> j -> list_set (list_set l i x) j y = list_set (list_set l j y) i x.
Proof. revert i j. induction l as [|z l IH]; intros [|i] [|j] N; cbn; auto; [congruence|]. f_equal. apply IH. congruence. Qed.
Lemma list_set_app_old {A} (l l' : list A) i x : (i < length l)%nat -> list_set (l ++ l') i x = list_set l i x ++ l'.
Proof. revert i. induction l as [|z l IH]; intros [|i] L; cbn in *; [lia|lia|reflexivity|]. f_equal. apply IH. lia. Qed.
(** A list of messages grows by one; a message that waits in the spare capacity is used. *)
Lemma hlist_grow_sim P sc md f m' s ss u h v y h' : (md_pool md = true -> pl = true) -> base P s -> (f_slot f < length ss)%nat ->
  (slot ss (f_slot f) = VNil \/ exists l, slot ss (f_slot f) = VList l) ->
  (forall z, In z (nth (f_slot f) h []) -> z = VNil \/ exists a b c, z = VMsg a b c) -> (md_pool md = false -> nth (f_slot f) h [] = []) ->
  own (heap s) P (VMsg ss u h) v -> list_grow sc md m' h (f_slot f) = (y, h') ->
  exists s1, hlist_grow sc grow md f m' v s = Done tt s1 /\ goes P s s1 /\ free s1 = free s /\
    own (heap s1) (gr P s s1) (VMsg (list_set ss (f_slot f) (VList (vlist (slot ss (f_slot f)) ++ [y]))) u h') v.
Proof.
  intros Hpl B Li Sl Hm Np O Eg.
  destruct (slot_write P s ss u h v (f_slot f) B O Li) as (a & hs & w & Q & -> & _ & Lh & HQ & Na & Os & Keep & Wr & _).
  assert (base Q s) as BQ by (eapply base_part; [|exact B]; intros b Qb; now apply HQ). pose proof BQ as (C1 & C2 & C3).
  unfold hlist_grow. rewrite (dbind_done _ _ _ _ _ (dget_done _ _ _ _ _ Na)). set (old := nth (f_slot f) hs HNil) in *. set (hl := nth (f_slot f) h []) in *.
  assert (forall j z, nth_error hl j = Some z -> z = VNil \/ exists b, spare_at (heap s) old j = HPtr b) as Hs.
  { intros j z E. destruct (Hm z (nth_error_In _ _ E)) as [->|(x1 & x2 & x3 & ->)]; [now left|right]. destruct Os as (k & _ & Oh & _).
    specialize (Oh _ _ E). cbn [owns] in Oh. destruct Oh as (_ & b & _ & _ & _ & _ & -> & _). eauto. }
  assert (rest_of h h' (f_slot f) /\ nth (f_slot f) h' [] = tl hl) as [Rh Nh'].
  { unfold list_grow in Eg. fold hl in Eg. destruct (md_pool md) eqn:Hp; [destruct hl as [|z rest] eqn:Eh|].
    - injection Eg as _ <-. split; [now left|assumption].
    - injection Eg as _ <-. split; [right; eauto|]. cbn [tl].
      destruct (Nat.lt_ge_cases (f_slot f) (length h)) as [L|L]; [now apply nth_list_set_eq|]. unfold hl in Eh. rewrite (nth_overflow h) in Eh by lia. discriminate Eh.
    - injection Eg as _ <-. split; [now left|]. fold hl. now rewrite (Np eq_refl). }
  (* a new message *)
  set (nw := new_obj (md_of sc m')). set (s1 := with_heap s (heap s ++ [nw])).
  pose proof (goes_alloc none s nw) as Ga. fold s1 in Ga. pose proof (goes_alloc Q s nw) as GaQ. fold s1 in GaQ.
  assert (base Q s1) as BQ1 by (eapply base_later; [exact BQ|exact Ga]).
  destruct (happend_sim Q (newb s s1) s1 (slot ss (f_slot f)) hl old (HPtr (length (heap s))) (new_msg (md_of sc m')) BQ1) as (s2 & v2 & E2 & G2 & F2 & O2); auto.
  { intros b Hb. now destruct (new_fresh _ _ _ _ BQ GaQ Hb) as (? & _ & ? & _). }
  { eapply own_slot_later; [exact BQ|exact Ga|exact Os]. }
  { cbn [s1 with_heap heap]. apply own_new. fold s1. unfold s1. rewrite newb_alloc. apply Nat.eqb_refl. }
  assert (goes Q s s2) as G02 by (eapply goes_trans; [exact GaQ|]; eapply goes_sub; [|exact G2]; intros b _ Qb; now left).
  destruct (Wr s2 (VList (vlist (slot ss (f_slot f)) ++ [new_msg (md_of sc m')])) h' v2 G02 Rh) as (s3 & E3 & H3 & F3 & G3 & O3).
  { rewrite Nh'. eapply own_slot_mono; [|exact O2]. intros b [Qb|Hb]; [now left|right]. apply orb_true_iff in Hb as [Hb|Hb]; [eapply newb_left; [exact G2|exact Hb]|eapply newb_right; [exact GaQ|exact Hb]]. }
  assert (free s3 = free s) as F03 by (rewrite F3, F2; reflexivity).
  destruct (md_pool md && negb (Nat.eqb (hlen old) (hcap old))) eqn:C.
  - apply andb_true_iff in C as [Hp C].
    destruct Sl as [X|[l X]]; rewrite X in *.
    { apply own_slot_own in Os. cbn [owns] in Os. rewrite Os in C. discriminate C. }
    pose proof (own_slot_own _ _ _ _ _ _ _ _ _ Os) as Ol.
    apply own_list in Ol as (aa & off & cap & es & c & Ea & Qa & Nn & Lc & Cc & Fe). rewrite Ea in C, E2, Hs, Os |- *. cbn [hlen hcap] in C.
    apply negb_true_iff, Nat.eqb_neq in C.
    assert (a <> aa) as Naa by (intros ->; now apply HQ in Qa).
    pose proof (at_lt _ _ _ Na) as La. pose proof (at_lt _ _ _ Nn) as Laa.
    cbv zeta. rewrite (dbind_done _ _ _ _ _ (dset_done _ _ _ _ _ _ Na)). set (sA := with_heap s _).
    set (x := spare_at (heap s) (HSlice aa off (length l) cap) 0).
    assert (x = nth (off + length l) es HNil) as Ex.
    { unfold x. cbn [spare_at]. replace (Nat.ltb _ _) with true by (symmetry; apply Nat.ltb_lt; lia). rewrite Nn. f_equal. lia. }
    assert (elem (HSlice aa off (S (length l)) cap) (length l) sA = Done x sA) as Ee.
    { cbn [elem]. replace (Nat.ltb (length l) (S (length l))) with true by (symmetry; apply Nat.ltb_lt; lia). unfold acc, bind, load.
      cbn [sA with_heap heap]. rewrite nth_error_set_neq by congruence. rewrite Nn. unfold ret. now rewrite Ex. }
    rewrite (dbind_done _ _ _ _ _ Ee).
    assert ((exists b, x = HPtr b) /\ (exists rest, hl = y :: rest) \/ (forall b, x <> HPtr b) /\ y = new_msg (md_of sc m')) as Hx.
    { unfold list_grow in Eg. rewrite Hp in Eg. fold hl in Eg. destruct Os as (k & _ & Oh & Cl). destruct hl as [|z rest].
      - right. injection Eg as <- _. split; [|reflexivity]. intros b. apply (Cl (Hpl Hp)). cbn. lia.
      - destruct (Hs 0%nat z eq_refl) as [->|[b Eb]].
        + right. injection Eg as <- _. split; [|reflexivity]. specialize (Oh 0%nat VNil eq_refl). cbn [owns] in Oh. intros b. unfold x. rewrite Oh. discriminate.
        + left. split; [exists b; exact Eb|]. destruct (Hm z (or_introl eq_refl)) as [->|(? & ? & ? & ->)].
          * specialize (Oh 0%nat VNil eq_refl). cbn [owns] in Oh. rewrite Oh in Eb. discriminate Eb.
          * injection Eg as <- _. eauto. }
    destruct Hx as [[[b0 Eb] [rest Eh]]|[Nx ->]].
    + (* the message that waits *)
      destruct (Wr s (VList (l ++ [y])) h' (HSlice aa off (S (length l)) cap) (goes_refl Q s) Rh) as (s4 & E4 & H4 & F4 & G4 & O4).
      { rewrite Nh'. eapply own_slot_mono; [|apply (grow_in_place pl ru unsafe V (heap s) (heap s) Q (fun _ => false) l hl aa off cap es y x); auto; try discriminate].
        - intros b [Qb|Hb]; [now left|discriminate Hb].
        - lia.
        - rewrite Nn. do 2 f_equal. symmetry. rewrite Ex. apply list_set_same. lia.
        - intros Va. destruct (C2 _ Va) as (_ & ? & _). auto.
        - right. split; [now rewrite Eh|reflexivity]. }
      exists s4. rewrite (dset_done _ _ _ _ _ _ Na) in E4. fold sA in E4. injection E4 as <-. rewrite Eb. split; [reflexivity|]. cbn [vlist]. auto.
    + assert ((dec! b := acc (alloc (new_obj (md_of sc m'))) in acc (set_elem aa (off + length l) (HPtr b))) sA = Done tt s3) as Es.
      { rewrite (dbind_done _ _ _ _ _ (alloc_done _ _)). set (sB := with_heap sA _).
        assert (nth_error (heap sB) aa = Some (OArr es)) as NB.
        { cbn [sB sA with_heap heap]. rewrite nth_error_app_old by (rewrite list_set_length; lia). rewrite nth_error_set_neq by congruence. assumption. }
        rewrite (set_elem_done _ _ _ _ _ NB). f_equal.
        (* the same writes in another order *)
        assert (nth_error (heap s1) aa = Some (OArr es)) as N1 by (cbn [s1 with_heap heap]; rewrite nth_error_app_old; assumption).
        unfold happend in E2. replace (Nat.ltb (length l) cap) with true in E2 by (symmetry; apply Nat.ltb_lt; lia).
        rewrite (dbind_done _ _ _ _ _ (set_elem_done _ _ _ _ _ N1)) in E2. unfold dret in E2. injection E2 as E2s E2v.
        assert (s3 = with_heap s (heap s3)) as ->.
        { pose proof (Keep _ G02) as N2. rewrite (dset_done _ _ _ _ _ _ N2) in E3. injection E3 as <-. rewrite <- E2v. reflexivity. }
        cbn [sB sA with_heap free picks]. unfold with_heap. f_equal. cbn [heap]. rewrite H3. rewrite <- E2s, <- E2v. cbn [s1 with_heap heap].
        assert (heap sB = list_set (heap s ++ [nw]) a (OMsg (list_set hs (f_slot f) (HSlice aa off (S (length l)) cap)) w)) as -> by (cbn [sB sA with_heap heap]; now rewrite list_set_app_old).
        replace (length (heap sA)) with (length (heap s)) by (cbn [sA with_heap heap]; now rewrite list_set_length). rewrite list_set_comm by congruence. reflexivity. }
      exists s3. split; [|auto]. destruct x; try exact Es. exfalso. eapply Nx. reflexivity.
  - rewrite (dbind_done _ _ _ _ _ (alloc_done _ _)). fold nw. fold s1. rewrite (dbind_done _ _ _ _ _ E2). exists s3. split; [assumption|]. split; [assumption|]. split; [assumption|].
    replace y with (new_msg (md_of sc m')); [exact O3|].
    unfold list_grow in Eg. destruct (md_pool md) eqn:Hp; [|now injection Eg]. fold hl in Eg. destruct hl as [|z rest]; [now injection Eg|].
    destruct (Hs 0%nat z eq_refl) as [->|[b Eb]]; [now injection Eg|]. exfalso.
    destruct old as [| | | | |aa off len cap|]; try discriminate Eb. cbn [spare_at] in Eb. cbn [andb hlen hcap] in C. apply negb_false_iff, Nat.eqb_eq in C. subst len.
    replace (Nat.ltb _ _) with false in Eb by (symmetry; apply Nat.ltb_ge; lia). discriminate Eb.
Qed.

(** A message from the pool, or a new one. *)
Lemma fresh_sim sc s md m : base none s ->
  exists s1 a x, hfresh sc md m s = Done a s1 /\ goes none s s1 /\ own (heap s1) (since s s1) x (HPtr a) /\ (x = new_msg (md_of sc m) \/ pr m x).
Proof.
  intros (_ & _ & _ & W1 & W2 & _).
  assert (forall ps, exists s1 a x, acc (alloc (new_obj (md_of sc m))) (mkMem (heap s) (free s) ps) = Done a s1 /\ goes none s s1 /\ own (heap s1) (since s s1) x (HPtr a) /\ (x = new_msg (md_of sc m) \/ pr m x)) as New.
  { intros ps. exists (with_heap (mkMem (heap s) (free s) ps) (heap s ++ [new_obj (md_of sc m)])), (length (heap s)), (new_msg (md_of sc m)). split; [reflexivity|].
    pose proof (goes_alloc none s (new_obj (md_of sc m))) as (G1 & G2 & G3 & G4). split; [|split; [|now left]].
    - split; [exact G1|]. split; [exact G2|]. split; [exact G3|exact G4].
    - cbn [with_heap heap]. apply own_new. change (since s (with_heap s (heap s ++ [new_obj (md_of sc m)])) (length (heap s))). unfold since. rewrite newb_alloc. apply Nat.eqb_refl. }
  unfold hfresh. destruct (md_pool md && md_pool (md_of sc m)) eqn:C; [|destruct s as [h0 f0 p0]; apply New].
  apply andb_true_iff in C as [_ Cp]. unfold acc, Alloc. rewrite Cp. destruct (picks s) as [|i ps] eqn:Ep.
  { destruct s as [h0 f0 p0]. apply New. }
  destruct (nth_error (free s) i) as [[m' a]|] eqn:Ei; [|apply New]. destruct (Nat.eqb m' m) eqn:Em; [|apply New].
  apply Nat.eqb_eq in Em. subst m'. destruct (W2 m a (nth_error_In _ _ Ei)) as [Wp Wo].
  apply nth_error_split in Ei as (l1 & l2 & El & Li). set (s1 := mkMem (heap s) (firstn i (free s) ++ skipn (S i) (free s)) ps).
  assert (free s1 = l1 ++ l2) as F1.
  { cbn [s1 free]. rewrite El, <- Li. rewrite firstn_app, firstn_all, Nat.sub_diag. cbn [firstn]. rewrite app_nil_r.
    rewrite skipn_app, skipn_all2 by lia. replace (S (length l1) - length l1)%nat with 1%nat by lia. reflexivity. }
  assert (NoDup (map snd (l1 ++ l2)) /\ ~ In a (map snd (l1 ++ l2))) as [Nd Na].
  { rewrite El, map_app in W1. cbn [map snd] in W1. rewrite map_app. split; [eapply NoDup_remove_1; eauto|eapply NoDup_remove_2; eauto]. }
  exists s1, a, (pt a). split; [reflexivity|]. split; [|split; [|now right]].
  - split; [reflexivity|]. split; [reflexivity|]. rewrite F1. split; [|intros _; exact Nd]. rewrite El. intros e He. apply in_app_iff in He. apply in_app_iff. cbn [In]. tauto.
  - eapply own_mono; [|exact Wo]. cbv beta. intros b Hb. apply newb_iff. right. apply drew_iff. split.
    + apply pooled_in. exists m, a. split; [|assumption]. rewrite El. apply in_elt.
    + destruct (pooled s1 b) eqn:X; [|reflexivity]. apply pooled_in in X as (m1 & a1 & Hin & Ea). rewrite F1 in Hin. exfalso. apply Na.
      assert (a1 = a) as -> by congruence. apply in_map_iff. exists (m1, a). auto.
Qed.

(** * One level of messages *)
Section Sim.
Variable sc : schema.
Hypothesis W : wf_schema sc = true.
Hypothesis U : up_dec_ok sc.
Hypothesis PL : forall m, md_pool (md_of sc m) = true -> pl = true.
Variable loc : nat -> Prop.
Variables R RE : nat -> val -> val -> Prop.
Hypothesis OK : rel_ok sc ru loc R RE.
Hypothesis PR : forall m x, pr m x -> R m x (new_msg (md_of sc m)).
Notation RV := (rel_value R).
Notation at_field := (at_field sc loc R).

(** From [s], the call on memory has ended in [x], the one on trees in [r]. *)
Definition sim {A} (m : nat) (P : nat -> Prop) (s : mem) (v : hval) (x : out A) (r : res val (val * A)) : Prop :=
  match r with
  | Ok (b, z) => exists s' a, x = Done z s' /\ goes P s s' /\ own (heap s') (gr P s s') a v /\ R m a b
  | Err e b => exists s' a, x = Fail e s' /\ goes P s s' /\ own (heap s') (gr P s s') a v /\ RE m a b
  | _ => True
  end.
Lemma own_gr P s t v : own (heap s) P t v -> own (heap s) (gr P s s) t v.
Proof. apply own_mono. apply gr_refl. Qed.
Lemma sim_err {A} m P s v e a b : own (heap s) P a v -> R m a b -> sim (A := A) m P s v (Fail e s) (Err e b).
Proof. intros O H. exists s, a. split; [reflexivity|]. split; [apply goes_refl|]. split; [now apply own_gr|]. now apply (r_err _ _ _ _ _ OK). Qed.
Lemma sim_calc {A B} m P s v a b (r : res unit A) (k : A -> D B) kr : own (heap s) P a v -> R m a b ->
  (forall a, r = Ok a -> sim m P s v (k a s) (kr a)) -> sim m P s v (dbind (calc r) k s) (rbind (lift b r) kr).
Proof.
  intros O Rab H. unfold dbind, calc. destruct r as [z|e []| |]; cbn [lift rbind]; try exact I; auto.
  eapply sim_err; eauto.
Qed.
Lemma sim_orpanic {A B} m P s v (o : option A) (k : A -> D B) kr :
  (forall a, o = Some a -> sim m P s v (k a s) (kr a)) -> sim m P s v (dbind (calc (orpanic o)) k s) (rbind (orpanic o) kr).
Proof. intros H. unfold dbind, calc. destruct o; cbn [orpanic rbind]; [auto|exact I]. Qed.
Lemma sim_trans {A} m P s s1 v (x : out A) r : goes P s s1 -> sim m (gr P s s1) s1 v x r -> sim m P s v x r.
Proof.
  intros G. destruct r as [[t a]|e t| |]; cbn [sim]; auto; intros (s' & t' & E & G' & O & H); exists s', t'; (split; [assumption|]); (split; [eapply goes_trans; eauto|]); (split; [|assumption]);
    (eapply own_mono; [|exact O]; intros b; now apply (gr_gr P P (gr P s s1))).
Qed.
Lemma sim_seq {A B} m P s v (x : D A) (k : A -> D B) r kr : sim m P s v (x s) r ->
  (forall b z a s', r = Ok (b, z) -> x s = Done z s' -> goes P s s' -> own (heap s') (gr P s s') a v -> R m a b -> sim m (gr P s s') s' v (k z s') (kr (b, z))) ->
  sim m P s v (dbind x k s) (rbind r kr).
Proof.
  intros S H. unfold dbind. destruct r as [[t a]|e t| |]; cbn [rbind sim] in *; auto.
  - destruct S as (s' & a' & E & G & O & Rx). rewrite E. eapply sim_trans; eauto.
  - destruct S as (s' & a' & -> & G & O & Rx). exists s', a'. auto.
Qed.
Lemma at_slots m f ss u h ss' h' : at_field m f ss u h ss' h' -> (f_slot f < length ss)%nat /\ (f_slot f < length ss')%nat.
Proof.
  intros (Lm & Hf & Rm & T). destruct (r_shape _ _ _ _ _ OK m _ _ Lm T Rm) as (s1 & u1 & h1 & s2 & h2 & E1 & E2 & L). injection E1 as <- <- <-. injection E2 as <- _.
  apply target_iff in T as (L' & _). pose proof (wf_slot sc m f W Hf). lia.
Qed.
Lemma hid_own h0 P m ss u h v b : loc m -> R m (VMsg ss u h) b -> own h0 P (VMsg ss u h) v -> forall i, nth i h [] <> [] ->
  message_list sc m i /\ forall z, In z (nth i h []) -> z = VNil \/ exists x y w, z = VMsg x y w.
Proof.
  intros Lm Rm O i Ni. destruct (bool_dec ru true) as [E|E]; [eapply (r_hid _ _ _ _ _ OK); eauto|].
  apply not_true_is_false in E. apply own_msg in O as [H _]. rewrite (H E) in Ni. now destruct i.
Qed.
Lemma hid_none h0 P m ss u h v b f : loc m -> In f (md_fields (md_of sc m)) -> R m (VMsg ss u h) b -> own h0 P (VMsg ss u h) v ->
  (forall p k m', f_ty f = TField (LRepeated p) k -> sub_of k = Some m' -> False) -> nth (f_slot f) h [] = [].
Proof.
  intros Lm Hf Rm O N. destruct (nth (f_slot f) h []) eqn:E; [reflexivity|]. exfalso.
  destruct (hid_own _ _ _ _ _ _ _ _ Lm Rm O (f_slot f)) as [[_ (g & p & k & m' & Hg & Sg & Tg & Kg)] _]; [congruence|].
  destruct (Z.eq_dec (f_num f) (f_num g)) as [En|En].
  - assert (g = f) as -> by (eapply wf_num_inj; eauto). eauto.
  - destruct (wf_compat sc m f g W Hf Hg) as [_ C]; [congruence|]. destruct (C (eq_sym Sg)) as [_ Og]. unfold is_oneof in Og. rewrite Tg in Og. discriminate Og.
Qed.

Variables uunm uext : nat -> nat -> list Z -> list obj -> bool * list obj.
Hypothesis UU : up_owns sc pl ru unsafe (fun md => md_foreign md = true) (up_dec (sc_up sc)) uunm.
Hypothesis UE : up_owns sc pl ru unsafe (fun md => md_ext md <> []) (up_ext (sc_up sc)) uext.
Section Level.
Variable N : nat.
Variable rec : nat -> list Z -> val -> res val val.
Variable hrec : nat -> input -> hval -> D unit.
Hypothesis Hrec : forall m buf v, (length buf < N)%nat -> bytes_ok buf = true -> small buf -> target sc m v ->
  agree (target sc m) (rec m buf v) (rec m buf v).
Definition unit_of (r : res val val) : res val (val * unit) := do t <- r; Ok (t, tt).
Hypothesis Hsim : forall P m p q s a b v, loc m -> (length q < N)%nat -> bytes_ok q = true -> small q -> target sc m b -> R m a b -> ok P s p q -> own (heap s) P a v ->
  sim m P s v (hrec m p v s) (unit_of (rec m q b)).
Notation rc := (fun _ : Z => rec).
Notation env := (safe_env sc).

Lemma call_up_sim which dec f P m bs s a b v : up_owns sc pl ru unsafe which dec f -> which (md_of sc m) -> base P s -> target sc m b -> R m a b -> own (heap s) P a v ->
  (forall t, dec m bs = Some t -> R m t t) ->
  sim m P s v (call_up f m bs v s) (match dec m bs with Some t' => Ok (t', tt) | None => Err EUpstream b end).
Proof.
  intros Hf Hw (B1 & B2 & B3 & _) T Rab O Hd. pose proof (r_wt _ _ _ _ _ OK m a b T Rab) as Wa. pose proof O as O'. assert (exists ss u h, a = VMsg ss u h) as (ss & u & h & E) by (inversion Wa; subst; eauto). rewrite E in O'.
  apply own_msg in O' as (_ & x & hs & w & c & -> & Pa & Na & _). unfold call_up.
  assert (acc (load x) s = Done (OMsg hs w) s) as El by (unfold acc, load; now rewrite Na). rewrite (dbind_done _ _ _ _ _ El).
  destruct (Hf P V m x bs (heap s) a Hw) as (ok0 & h' & E1 & [M1 M2] & Rs); auto.
  { intros b0 Pb. now apply B1. }
  { intros b0 Vb. destruct (B2 b0 Vb) as (? & ? & _). auto. }
  rewrite E1. assert (goes P s (with_heap s h')) as G.
  { split; [exact M1|]. split; [intros b0 Lb Nb _; now apply M2|]. split; [apply incl_refl|auto]. }
  assert (forall b0, grown P (heap s) h' b0 -> gr P s (with_heap s h') b0) as Gg.
  { intros b0 [Pb|Hb]; [now left|right]. apply newb_iff. left. exact Hb. }
  destruct (dec m bs) as [t'|]; destruct Rs as [-> Rs]; cbn [sim]; exists (with_heap s h'); eexists; (split; [reflexivity|]); (split; [assumption|]); (split; [eapply own_mono; [exact Gg|exact Rs]|auto]).
  now apply (r_err _ _ _ _ _ OK).
Qed.
Lemma decodeMessage_sim P m p q s a b v i : (length q < N)%nat -> bytes_ok q = true -> small q -> target sc m b -> R m a b -> ok P s p q -> own (heap s) P a v ->
  sim m P s v (hdecodeMessage sc uunm hrec m p v s) (unit_of (decodeMessage sc rc i m q b)).
Proof.
  intros L B S T Rab K O. unfold hdecodeMessage, decodeMessage. destruct (md_foreign (md_of sc m)) eqn:F; [|apply (Hsim P m p q s a b v); auto; now apply (r_loc _ _ _ _ _ OK)].
  rewrite (dbind_done _ _ _ _ _ (data_ok _ _ _ _ K)).
  assert (forall t, up_dec (sc_up sc) m q = Some t -> R m t t) as Hd by (intros t; now apply (r_dec _ _ _ _ _ OK)).
  pose proof (call_up_sim _ _ _ P m q s a b v UU F (proj1 K) T Rab O Hd) as C. destruct (target_vmsg _ _ _ T) as (ss & u & h & ->).
  destruct (up_dec (sc_up sc) m q); exact C.
Qed.
Lemma decodeMessage_ok1 i m q t : (length q < N)%nat -> bytes_ok q = true -> small q -> target sc m t ->
  (exists t', decodeMessage sc rc i m q t = Ok t' /\ target sc m t') \/ (exists e t', decodeMessage sc rc i m q t = Err e t' /\ target sc m t').
Proof.
  intros L B S T. destruct (decodeMessage_ok sc U N rec rec Hrec i i m q t L B S T) as [(a & E & _ & Q)|(e & e' & a & E & _ & Q)]; eauto.
Qed.

(** A message in memory of its own. *)
Lemma none_gr s s1 b : gr none s s1 b <-> since s s1 b.
Proof. split; [intros [[]|?]; assumption|now right]. Qed.
Lemma ok_none s p d s' : ok none s p d -> goes none s s' -> ok none s' p d.
Proof. intros K G. eapply ok_part; [|eapply ok_goes; eassumption]. intros b []. Qed.
Lemma new_decode_sim s s1 m p q i x y v : (length q < N)%nat -> bytes_ok q = true -> small q -> ok none s p q ->
  goes none s s1 -> own (heap s1) (since s s1) x v -> R m x y -> target sc m y ->
  match decodeMessage sc rc i m q y with
  | Ok t => exists s' x', hdecodeMessage sc uunm hrec m p v s1 = Done tt s' /\ goes none s s' /\ own (heap s') (since s s') x' v /\ R m x' t
  | Err e t => exists s', hdecodeMessage sc uunm hrec m p v s1 = Fail e s' /\ goes none s s'
  | _ => True
  end.
Proof.
  intros L B S K Ga O Rxy T. pose proof (ok_goes _ _ _ _ _ K Ga) as K1.
  assert (own (heap s1) (gr none s s1) x v) as On by (eapply own_mono; [|exact O]; intros b; apply none_gr).
  pose proof (decodeMessage_sim _ m p q s1 x y v i L B S T Rxy K1 On) as Sm.
  destruct (decodeMessage sc rc i m q y) as [t|e t| |]; cbn [unit_of rbind sim] in Sm; auto; destruct Sm as (s' & x' & E & G & O' & Rx); exists s'.
  - exists x'. split; [exact E|]. split; [eapply goes_trans; eauto|]. split; [|assumption].
    eapply own_mono; [|exact O']. intros b Hb. apply none_gr. eapply gr_gr; eauto.
  - split; [exact E|]. eapply goes_trans; eauto.
Qed.

(** Variables (map keys and values) made of objects taken since [s0]. *)
Definition vsim {A} k s0 s (d : list Z) (x : out (hval * Z)) (r : res A (val * Z)) : Prop :=
  match r with
  | Ok (t, j) => exists s' hx t', x = Done (hx, j) s' /\ goes none s s' /\ own (heap s') (since s0 s') t' hx /\ RV k t' t /\ 0 <= j <= zlen d
  | Err e _ => exists s', x = Fail e s' /\ goes none s s'
  | _ => True
  end.
Lemma vsim_calc {B} kd s0 s d (r : res unit B) (k : B -> D (hval * Z)) (kr : B -> res unit (val * Z)) :
  (forall a, r = Ok a -> vsim kd s0 s d (k a s) (kr a)) -> vsim kd s0 s d (dbind (calc r) k s) (rbind r kr).
Proof.
  intros H. unfold dbind, calc. destruct r as [a|e []| |]; cbn [rbind]; try exact I; auto.
  exists s. split; [reflexivity|apply goes_refl].
Qed.
Lemma own_int h P t hc : own h P t hc -> match hc with HInt z => z | _ => 0 end = vint t.
Proof.
  intros Oc. destruct t; cbn [owns owns_bytes vint] in *; subst; try reflexivity; try (destruct hc; try contradiction; reflexivity); try (destruct Oc as [Oc|[_ Oc]]; destruct hc; try contradiction; reflexivity);
      try (destruct Oc as (? & ? & -> & _); reflexivity);
      try (destruct Oc as (? & ? & ? & -> & _); reflexivity); try (destruct Oc as (? & ? & ? & ? & ? & -> & _); reflexivity);
      try (destruct Oc as (_ & ? & ? & ? & ? & ? & -> & _); reflexivity).
Qed.
Lemma sub_class k : (exists m, sub_of k = Some m /\ (classify k = CMsg m \/ classify k = CGrp m)) \/
  (sub_of k = None /\ forall m, classify k <> CMsg m /\ classify k <> CGrp m).
Proof. destruct k; try (right; split; [reflexivity|]; split; discriminate); left; eexists; (split; [reflexivity|]); cbn [classify]; auto. Qed.
Lemma mapField_sim k ca cb hc p d i s0 s : ok none s p d -> bytes_ok d = true -> small d -> (length d <= N)%nat -> 0 <= i <= zlen d ->
  base none s0 -> goes none s0 s -> own (heap s) (since s0 s) ca hc -> RV k ca cb ->
  vsim k s0 s d (hmapField sc unsafe uunm hrec k hc p i s) (mapField sc rc env k cb d i).
Proof.
  intros K B S Ln Hi B0 G0 Oc Rc. unfold hmapField, mapField. rewrite (dbind_done _ _ _ _ _ (data_ok _ _ _ _ K)).
  assert (is_num k = true -> forall z0, z0 = vint ca -> vsim k s0 s d (dbind (calc (decodeNumber k z0 d i)) (fun '(z, i) => dret (HInt z, i)) s)
     (do r <- decodeNumber k (vint cb) d i; Ok (VInt (fst r), snd r))) as Num.
  { intros Nk z0 ->. assert (vint ca = vint cb) as ->. { destruct Rc as [[_ ->]|(m & Sk & _)]; [reflexivity|destruct k; discriminate]. }
    apply vsim_calc. intros [z j] E. cbn [fst snd]. exists s, (HInt z), (VInt z). split; [reflexivity|].
    split; [apply goes_refl|]. split; [reflexivity|]. split; [left; split; [left; eauto|reflexivity]|]. pose proof (number_at _ _ _ _ _ _ B S Hi E). lia. }
  pose proof (own_int _ _ _ _ Oc) as Ez.
  destruct (classify k) as [| | | | | | |m'|m'] eqn:Ck; try (apply Num; [destruct k; try discriminate Ck; reflexivity|exact Ez]).
  - (* string *) assert (k = KString) as -> by (destruct k; discriminate || reflexivity). apply vsim_calc. intros [i1 j] E. destruct (len_at _ _ _ _ _ B S Hi E) as (q & Z & Lq & H1 & H2 & Bq & Sq).
    rewrite Z. cbn [orpanic rbind]. destruct (hstring_sim _ _ _ _ _ _ _ K Z) as (x & Ex & Ox). rewrite (dbind_done _ _ _ _ _ Ex). exists s, x, (VStr q). split; [reflexivity|].
    split; [apply goes_refl|]. split; [apply Ox|]. split; [left; split; [right; left; eauto|reflexivity]|lia].
  - (* bytes *) assert (k = KBytes) as -> by (destruct k; discriminate || reflexivity). apply vsim_calc. intros [i1 j] E. destruct (len_at _ _ _ _ _ B S Hi E) as (q & Z & Lq & H1 & H2 & Bq & Sq).
    rewrite Z. cbn [orpanic rbind]. destruct (hbytes_sim _ _ _ _ _ _ _ K Z) as (s1 & x & E1 & G1 & O1). rewrite (dbind_done _ _ _ _ _ E1).
    exists s1, x, (VBytes q). split; [reflexivity|]. split; [assumption|]. split; [|split; [left; split; [right; right; eauto|reflexivity]|lia]].
    eapply own_mono; [|exact O1]. intros b Hb. eapply newb_right; eauto.
  - (* message *) assert (sub_of k = Some m') as Sk by (destruct k; try discriminate Ck; cbn in *; congruence).
    apply vsim_calc. intros [i1 j] E. destruct (len_at _ _ _ _ _ B S Hi E) as (q & Z & Lq & H1 & H2 & Bq & Sq).
    rewrite Z. cbn [orpanic rbind]. rewrite (dbind_done _ _ _ _ _ (alloc_done _ _)). set (nw := new_obj (md_of sc m')).
    pose proof (new_decode_sim s (with_heap s (heap s ++ [nw])) m' (sub p i1 j) q i1 (new_msg (md_of sc m')) (new_msg (md_of sc m')) (HPtr (length (heap s)))
      ltac:(lia) Bq Sq (sub_ok _ _ _ _ _ _ _ K Z) (goes_alloc none s nw)) as D0.
    destruct (decodeMessage sc rc i1 m' q (new_msg (md_of sc m'))) as [t|e t| |]; cbn [drop_state rbind vsim]; auto;
      (destruct D0 as (s' & D0); [cbn [with_heap heap]; apply own_new; unfold since; rewrite newb_alloc; apply Nat.eqb_refl|apply (r_new _ _ _ _ _ OK)|now apply target_new|]).
    + destruct D0 as (x' & E1 & G1 & O1 & R1). unfold dbind. rewrite E1. exists s', (HPtr (length (heap s))), x'. split; [reflexivity|]. split; [assumption|].
      split; [|split; [right; eauto|lia]]. eapply own_mono; [|exact O1]. intros b Hb. eapply newb_right; eauto.
    + destruct D0 as (E1 & G1). unfold dbind. rewrite E1. exists s'. auto.
  - (* group *) exists s, hc, ca. split; [reflexivity|]. split; [apply goes_refl|]. split; [assumption|]. split; [assumption|lia].
Qed.
Definition key_val (kk : kind) (x : val) : Prop := leaf kk x /\ ((exists z, x = VInt z) \/ (exists q, x = VStr q)).
Lemma key_rv kk x y : key_kind kk = true -> RV kk x y -> x = y /\ key_val kk x.
Proof.
  intros K [[H ->]|(m & Sk & _)]; [|destruct kk; discriminate]. split; [reflexivity|]. split; [assumption|].
  destruct H as [[_ [z ->]]|[[_ [q ->]]|[-> _]]]; eauto. discriminate K.
Qed.
Definition lsim kk vk s0 s (x : out (hval * hval)) (r : res unit (val * val * Z)) : Prop :=
  match r with
  | Ok (k, t, _) => exists s' hk hv t', x = Done (hk, hv) s' /\ goes none s s' /\ owns_key V (heap s') k hk /\ own (heap s') (since s0 s') t' hv /\ leaf kk k /\ RV vk t' t
  | Err e _ => exists s', x = Fail e s' /\ goes none s s'
  | _ => True
  end.
Lemma lsim_trans kk vk s0 s s1 x r : goes none s s1 -> lsim kk vk s0 s1 x r -> lsim kk vk s0 s x r.
Proof.
  intros G. destruct r as [[[k t] z]| | |]; cbn [lsim]; auto.
  - intros (s' & hk & hv & t' & E & G' & H). exists s', hk, hv, t'. split; [assumption|]. split; [eapply none_trans; eauto|assumption].
  - intros (s' & E & G'). exists s'. split; [assumption|]. eapply none_trans; eauto.
Qed.
Lemma map_loop_sim kk vk p d post s0 : key_kind kk = true -> bytes_ok d = true -> small d -> (length d <= N)%nat -> post <= zlen d -> base none s0 ->
  forall fuel s i key hk va vb hv,
  ok none s p d -> goes none s0 s -> 0 <= i <= zlen d -> key_val kk key ->
  own (heap s) (since s0 s) key hk -> own (heap s) (since s0 s) va hv -> RV vk va vb ->
  lsim kk vk s0 s (hmap_loop sc unsafe uunm hrec fuel kk vk p i post hk hv s) (map_loop sc rc env fuel kk vk d i post key vb).
Proof.
  intros Kk B S Ln Hp B0. induction fuel as [|fuel IH]; intros s i key hk va vb hv K G0 Hi Kf Ok0 Ov Rv; [exact I|]. cbn [hmap_loop map_loop].
  assert (forall e, lsim kk vk s0 s (Fail e s) (Err e tt)) as Er by (intros e; exists s; split; [reflexivity|apply goes_refl]).
  destruct (i <? post) eqn:Hip.
  2:{ exists s, hk, hv, va. split; [reflexivity|]. split; [apply goes_refl|]. split; [eapply own_key; [apply Kf|exact Ok0]|]. split; [assumption|]. split; [apply Kf|assumption]. }
  cbv zeta. rewrite (dbind_done _ _ _ _ _ (data_ok _ _ _ _ K)).
  destruct (decodeVarint u64 0 d i) as [[wire i1]|e []| |] eqn:Ew; cbn [rbind]; try exact I; [|apply Er].
  unfold dbind at 1. cbn [calc]. pose proof (varint_at _ _ _ _ B S Hi Ew) as Hi1.
  destruct (s32 (Z.shiftr wire 3) =? 1).
  - pose proof (mapField_sim kk key key hk p d i1 s0 s K B S Ln ltac:(lia) B0 G0 Ok0 (or_introl (conj (proj1 Kf) eq_refl))) as M.
    destruct (mapField sc rc env kk key d i1) as [[x j]|e []| |]; cbn [rbind vsim] in *; try exact I.
    + destruct M as (s1 & hx & x' & E1 & G1 & O1 & Rx & Hj). destruct (key_rv _ _ _ Kk Rx) as [-> Kx]. unfold dbind. rewrite E1. eapply lsim_trans; [exact G1|].
      cbn [fst snd]. eapply IH; eauto; [eapply ok_none; eauto|eapply none_trans; eauto|eapply own_since; eauto].
    + destruct M as (s1 & E1 & G1). unfold dbind. rewrite E1. exists s1. auto.
  - destruct (s32 (Z.shiftr wire 3) =? 2).
    + pose proof (mapField_sim vk va vb hv p d i1 s0 s K B S Ln ltac:(lia) B0 G0 Ov Rv) as M.
      destruct (mapField sc rc env vk vb d i1) as [[x j]|e []| |]; cbn [rbind vsim] in *; try exact I.
      * destruct M as (s1 & hx & x' & E1 & G1 & O1 & Rx & Hj). unfold dbind. rewrite E1. eapply lsim_trans; [exact G1|].
        cbn [fst snd]. eapply IH; eauto; [eapply ok_none; eauto|eapply none_trans; eauto|eapply own_since; eauto].
      * destruct M as (s1 & E1 & G1). unfold dbind. rewrite E1. exists s1. auto.
    + destruct (zslice d i (zlen d)) as [rest|]; cbn [orpanic rbind]; [|exact I]. unfold dbind at 1. cbn [calc].
      destruct (Skip rest) as [n|e []| |]; cbn [rbind]; try exact I; [|apply Er]. unfold dbind at 1. cbn [calc].
      destruct ((n <? 0) || (s64 (i + n) <? 0)) eqn:C1; [apply Er|]. destruct (post <? s64 (i + n)) eqn:C2; [apply Er|].
      apply orb_false_iff in C1 as [_ C1]. eapply IH; eauto. lia.
Qed.
Lemma zero_key kk : key_kind kk = true -> key_val kk (map_zero kk).
Proof.
  intros K. assert (is_num kk = true \/ kk = KString) as [Nk| ->] by (destruct kk; auto; discriminate).
  - replace (map_zero kk) with (VInt 0) by (destruct kk; try discriminate Nk; reflexivity). split; [left; split; [assumption|eauto]|left; eauto].
  - split; [right; left; split; [reflexivity|]|right]; exists []; reflexivity.
Qed.
Lemma zero_rv k : RV k (map_zero k) (map_zero k).
Proof.
  destruct (sub_class k) as [(m & Sk & Ck)|[Sk Ck]].
  - right. exists m. split; [assumption|]. unfold map_zero. destruct Ck as [-> | ->]; apply (r_nil _ _ _ _ _ OK).
  - left. split; [|reflexivity]. destruct k; try discriminate Sk; unfold leaf, map_zero; cbn [classify is_num]; eauto 6.
Qed.
Lemma R_shape m a b : loc m -> target sc m b -> R m a b -> exists ss u h ss' h', a = VMsg ss u h /\ b = VMsg ss' u h' /\ length ss = length ss'.
Proof. apply (r_shape _ _ _ _ _ OK). Qed.
Lemma list_set_last {A} (l : list A) x y : list_set (l ++ [x]) (length l) y = l ++ [y].
Proof. induction l as [|z l IH]; cbn; auto. now rewrite IH. Qed.
Lemma map_item_sim P m f kk vk p d i s ta tb v : loc m -> In f (md_fields (md_of sc m)) -> f_ty f = TMap kk vk -> ok P s p d -> bytes_ok d = true -> small d ->
  (length d <= N)%nat -> 0 <= i <= zlen d -> target sc m tb -> R m ta tb -> own (heap s) P ta v ->
  sim m P s v (hmap_item sc unsafe uunm hrec f kk vk p i v s) (map_item sc rc env f kk vk d i tb).
Proof.
  intros Lm Hf Ty K B S Ln Hi T Rab O. pose proof (wf_ty sc m f W Hf) as WT. rewrite Ty in WT. cbn in WT. rewrite !andb_true_iff in WT. destruct WT as [[Kk _] _].
  unfold hmap_item, map_item. rewrite (dbind_done _ _ _ _ _ (data_ok _ _ _ _ K)).
  eapply sim_calc; [exact O|exact Rab|]. intros [i1 post] E. destruct (len_at _ _ _ _ _ B S Hi E) as (q & Zs & Lq & H1 & H2 & Bq & Sq).
  destruct (R_shape _ _ _ Lm T Rab) as (ss & u & h & ss' & h' & -> & -> & Ls). assert (at_field m f ss u h ss' h') as At by (split; [assumption|]; split; [assumption|]; split; assumption).
  destruct (at_slots _ _ _ _ _ _ _ At) as [Li Li']. cbn [get_slot set_slot orpanic rbind].
  assert (nth (f_slot f) h [] = []) as Hh by (eapply hid_none; eauto; congruence).
  set (lm := vmap (slot ss (f_slot f))). set (lm' := vmap (slot ss' (f_slot f))).
  pose proof (r_map0 _ _ _ _ _ OK _ _ _ _ _ _ _ _ _ At Ty) as R0. fold lm lm' in R0.
  assert (exists s2, dbind (dget v (f_slot f)) (fun old => match old with HNil => dec! a := acc (alloc (OMap [])) in dset v (f_slot f) (HMap a) | _ => dret tt end) s = Done tt s2 /\
     goes P s s2 /\ own (heap s2) (gr P s s2) (VMsg (list_set ss (f_slot f) (VMap lm)) u h) v) as (s2 & E2 & G2 & O2).
  { destruct (slot_write P s ss u h v (f_slot f) (proj1 K) O Li) as (a & hs & w & Q & -> & _ & Lh & HQ & Na & Os & Keep & Wr & Nw). rewrite Hh in Os. apply own_slot_nil in Os as [Os _].
    rewrite (dbind_done _ _ _ _ _ (dget_done _ _ _ _ _ Na)). destruct (r_map _ _ _ _ _ OK _ _ _ _ _ _ _ _ _ At Ty) as [X|[l X]]; unfold lm; rewrite X in *; cbn [owns vmap] in *.
    - rewrite Os. rewrite (dbind_done _ _ _ _ _ (alloc_done _ _)). pose proof (goes_alloc Q s (OMap [])) as Ga.
      destruct (Wr _ (VMap []) h (HMap (length (heap s))) Ga (or_introl eq_refl)) as (s' & E' & _ & _ & G' & O'); [|eauto].
      rewrite Hh. apply slot_other; [|discriminate].
      apply own_map. exists (length (heap s)), [], (fun _ => 0%nat). cbn [with_heap heap]. split; [reflexivity|].
      split; [right; rewrite newb_alloc; apply Nat.eqb_refl|]. split; [rewrite nth_error_app2, Nat.sub_diag by lia; reflexivity|].
      split; [reflexivity|]. intros [|j]; discriminate.
    - pose proof Os as (a0 & es & c & Ea & _). exists s. rewrite Ea. split; [reflexivity|]. split; [apply goes_refl|]. apply (Nw s (VMap l)); [apply goes_refl|now left|].
      rewrite Hh. apply slot_other; [|discriminate]. eapply own_mono; [|exact Os]. intros b Qb. now left. }
  assert (forall (k : unit -> D Z), dbind (dget v (f_slot f)) (fun old => dbind (match old with HNil => dec! a := acc (alloc (OMap [])) in dset v (f_slot f) (HMap a) | _ => dret tt end) k) s = k tt s2) as Eb.
  { intros k. unfold dbind in *. destruct (dget v (f_slot f) s) as [old s'| | |] eqn:Ed; try discriminate E2. now rewrite E2. }
  rewrite Eb. clear Eb. eapply sim_trans; [exact G2|]. pose proof (ok_goes _ _ _ _ _ K G2) as K2. set (P2 := gr P s s2) in *.
  assert (f_slot f < length (list_set ss (f_slot f) (VMap lm)))%nat as Li2 by now rewrite list_set_length.
  pose proof (slot_write P2 s2 _ u h v (f_slot f) (proj1 K2) O2 Li2) as (a & hs & w & Q & -> & _ & Lh & HQ & Na & Os & Keep & Wr & Nw).
  unfold slot in Os. erewrite nth_error_nth in Os by (apply nth_error_set_eq; assumption). rewrite Hh in Os. apply own_slot_nil in Os as [Os _].
  assert (ok none s2 p d) as Kn by (eapply ok_part; [|exact K2]; intros b []).
  pose proof (map_loop_sim kk vk p d post s2 Kk B S Ln ltac:(lia) (proj1 Kn) (Datatypes.S (length d)) s2 i1 _ _ _ _ _ Kn (goes_refl _ _) ltac:(lia) (zero_key kk Kk)
     (zero_sim (heap s2) (since s2 s2) kk) (zero_sim (heap s2) (since s2 s2) vk) (zero_rv vk)) as ML.
  rewrite (len_ok _ _ _ _ K). destruct (map_loop sc rc env (Datatypes.S (length d)) kk vk d i1 post (map_zero kk) (map_zero vk)) as [[[key value] z]|e []| |]; cbn [lsim lift rbind] in *; try exact I.
  2:{ destruct ML as (s3 & E3 & G3). unfold dbind. rewrite E3. exists s3, (VMsg (list_set ss (f_slot f) (VMap lm)) u h). split; [reflexivity|].
      split; [now apply goes_none|]. split; [|now apply (r_err _ _ _ _ _ OK)]. eapply own_mono; [|eapply (own_later P2); [apply K2|exact G3|exact O2]].
      intros b Hb. now left. }
  destruct ML as (s3 & hk & hv & value' & E3 & G3 & Ok3 & Ov3 & Lk & Rv). rewrite (dbind_done _ _ _ _ _ E3).
  rewrite (dbind_done _ _ _ _ _ (dget_done _ _ _ _ _ (Keep s3 (goes_none Q _ _ G3)))).
  assert (base Q s2) as BQ by (eapply base_part; [|apply K2]; intros b Qb; now apply HQ).
  assert (base Q s3) as BQ3 by (eapply base_later; eauto).
  destruct (map_assign_sim Q (newb s2 s3) s3 lm (nth (f_slot f) hs HNil) key hk value' hv BQ3) as (s4 & E4 & G4 & _ & L4 & O4); auto.
  { intros b Hb. now destruct (new_fresh _ _ _ _ BQ (goes_none Q _ _ G3) Hb) as (_ & _ & ? & _). }
  { eapply own_later; [exact BQ|exact G3|exact Os]. }
  rewrite (dbind_done _ _ _ _ _ E4). cbn [set_slot orpanic rbind sim].
  assert (goes Q s2 s4) as G24 by (eapply goes_trans; [apply goes_none; exact G3|]; eapply goes_sub; [|exact G4]; intros b _ Qb; now left).
  destruct (Nw s4 (VMap (map_set lm key value')) h G24 (or_introl eq_refl)) as [G5 O5].
  { rewrite Hh. apply slot_other; [|discriminate]. eapply own_mono; [|exact O4]. intros b [Qb|Hb]; [now left|right; eapply newb_left; [exact G4|exact Hb]]. }
  rewrite list_set_set in O5. eexists s4, _. split; [reflexivity|]. split; [assumption|]. split; [exact O5|]. rewrite list_set_set. now apply (r_mapset _ _ _ _ _ OK _ _ _ _ _ _ _ _ _ _ _ _ At Ty).
Qed.

(** * Message fields *)
Lemma nested_sim m m' P Q s x v (hd : D unit) r put F F' (post : Z) : sim m' Q s x (hd s) (unit_of r) ->
  (forall s2 t, goes Q s s2 -> own (heap s2) (gr Q s s2) t x -> goes P s s2 /\ own (heap s2) (gr P s s2) (F t) v) ->
  (forall a b, r = Ok b -> R m' a b -> R m (F a) (F' b)) -> (forall e a b, r = Err e b -> RE m' a b -> RE m (F a) (F' b)) -> (forall t, put t = Some (F' t)) ->
  sim m P s v (dbind hd (fun _ => dret post) s) (do v' <- nest r put; Ok (v', post)).
Proof.
  intros Sm Wd HR HE Pt. destruct r as [t|e t| |]; cbn [nest unit_of rbind sim] in *; auto; rewrite ?Pt; cbn [rbind].
  - destruct Sm as (s' & a & E & G & O & Ra). destruct (Wd s' a G O) as [G' O']. unfold dbind. rewrite E. exists s', (F a). eauto.
  - destruct Sm as (s' & a & E & G & O & Ra). destruct (Wd s' a G O) as [G' O']. unfold dbind. rewrite E. exists s', (F a). eauto 6.
Qed.
Lemma fresh_rel m x : x = new_msg (md_of sc m) \/ pr m x -> R m x (new_msg (md_of sc m)).
Proof. intros [->|H]; [apply (r_new _ _ _ _ _ OK)|now apply PR]. Qed.
Lemma wt_vmsg m t : wt_msg sc m t -> exists ss u h, t = VMsg ss u h.
Proof. intros H. inversion H; subst; eauto. Qed.
Lemma message_item_sim P m f lbl m' p d i s ta tb v : loc m -> In f (md_fields (md_of sc m)) -> f_ty f = TField lbl (KMessage m') -> ok P s p d -> bytes_ok d = true -> small d ->
  (length d <= N)%nat -> 0 <= i <= zlen d -> target sc m tb -> R m ta tb -> own (heap s) P ta v ->
  sim m P s v (hmessage_item sc grow uunm hrec (md_of sc m) f lbl m' p i v s) (message_item sc rc env (md_of sc m) f lbl m' d i tb).
Proof.
  intros Lm Hf Ty K B S Ln Hi T Rab O. unfold hmessage_item, message_item. rewrite (dbind_done _ _ _ _ _ (data_ok _ _ _ _ K)).
  eapply sim_calc; [exact O|exact Rab|]. intros [i1 post] E. destruct (len_at _ _ _ _ _ B S Hi E) as (q & Zs & Lq & H1 & H2 & Bq & Sq).
  rewrite Zs. cbn [orpanic rbind]. cbv zeta.
  destruct (R_shape _ _ _ Lm T Rab) as (ss & u & h & ss' & h' & -> & -> & Ls). assert (at_field m f ss u h ss' h') as At by (split; [assumption|]; split; [assumption|]; split; assumption).
  destruct (at_slots _ _ _ _ _ _ _ At) as [Li Li'].
  assert (length q < N)%nat as Lqn by lia.
  replace (if md_pool (md_of sc m) && md_pool (md_of sc m') then ue_alloc env i1 m' else new_msg (md_of sc m')) with (new_msg (md_of sc m')) by (cbn [safe_env ue_alloc]; now destruct (_ && _)).
  pose proof (wf_ty sc m f W Hf) as WT. rewrite Ty in WT. cbn in WT.
  assert (base none s) as Bn by (eapply base_none; apply K).
  assert (lbl = LOptional \/ lbl = LRequired ->
    sim m P s v ((dec! old := dget v (f_slot f) in
      dec! _ := match old with HNil => dec! a := hfresh sc (md_of sc m) m' in dset v (f_slot f) (HPtr a) | _ => dret tt end in
      dec! x := dget v (f_slot f) in
      dec! _ := hdecodeMessage sc uunm hrec m' (sub p i1 post) x in dret post) s)
     (do v' <- nest (decodeMessage sc rc i1 m' q (match slot ss' (f_slot f) with VNil => new_msg (md_of sc m') | _ => slot ss' (f_slot f) end)) (fun x' => set_slot (VMsg ss' u h') (f_slot f) x'); Ok (v', post))) as One.
  { intros Hl. set (tg := match slot ss' (f_slot f) with VNil => new_msg (md_of sc m') | _ => slot ss' (f_slot f) end).
    assert (nth (f_slot f) h [] = []) as Hh by (eapply hid_none; eauto; intros ? ? ? Ht; destruct Hl; subst; congruence).
    destruct (r_sub _ _ _ _ _ OK _ _ _ _ _ _ _ _ _ At Ty Hl) as [Rs Rn].
    destruct (slot_sub sc m f lbl (KMessage m') m' ss' u h' T Hf Ty Hl eq_refl) as [Tn|Ts0].
    2: assert (wt_msg sc m' (slot ss (f_slot f))) as Ws by (eapply (r_wt _ _ _ _ _ OK); eassumption).
    all: assert (target sc m' tg) as Tt by (unfold tg; first [rewrite Tn; now apply target_new|destruct (target_vmsg _ _ _ Ts0) as (? & ? & ? & X'); rewrite X' in *; assumption]).
    all: assert (exists s1 x, dbind (dget v (f_slot f)) (fun old => match old with HNil => dec! a := hfresh sc (md_of sc m) m' in dset v (f_slot f) (HPtr a) | _ => dret tt end) s = Done tt s1 /\
      goes P s s1 /\ own (heap s1) (gr P s s1) (VMsg (list_set ss (f_slot f) x) u h) v /\ R m' x tg /\ exists a1 a2 a3, x = VMsg a1 a2 a3) as (s1 & x & E1 & G1 & O1 & Rx & Xm).
    { destruct (slot_write P s ss u h v (f_slot f) (proj1 K) O Li) as (a & hs & w & Q & -> & _ & Lh & HQ & Na & Os & Keep & Wr & Nw). rewrite Hh in Os. apply own_slot_nil in Os as [Os _].
      rewrite (dbind_done _ _ _ _ _ (dget_done _ _ _ _ _ Na)). rewrite (proj2 Rn Tn) in Os. cbn [owns] in Os. rewrite Os.
      destruct (fresh_sim sc s (md_of sc m) m' Bn) as (s1 & a1 & x & E1 & G1 & O1 & Hx). rewrite (dbind_done _ _ _ _ _ E1).
      pose proof (fresh_rel _ _ Hx) as Rx. assert (exists a1 a2 a3, x = VMsg a1 a2 a3) as Xm by (eapply wt_vmsg, (r_wt _ _ _ _ _ OK); [|exact Rx]; now apply target_new).
      destruct (Wr s1 x h (HPtr a1) (goes_none Q _ _ G1) (or_introl eq_refl)) as (s' & E' & _ & _ & G' & O').
      { rewrite Hh. apply slot_other; [|destruct Xm as (? & ? & ? & ->); discriminate]. eapply own_mono; [|exact O1]. intros b Hb. now right. }
      exists s', x. split; [exact E'|]. split; [assumption|]. split; [assumption|]. split; [unfold tg; now rewrite Tn|assumption]. }
    2:{ destruct (slot_write P s ss u h v (f_slot f) (proj1 K) O Li) as (a & hs & w & Q & -> & _ & Lh & HQ & Na & Os & Keep & Wr & Nw). rewrite Hh in Os. apply own_slot_nil in Os as [Os _].
      rewrite (dbind_done _ _ _ _ _ (dget_done _ _ _ _ _ Na)). destruct (wt_vmsg _ _ Ws) as (s0 & u0 & h0 & X'). rewrite X' in *. pose proof Os as Os'. apply own_msg in Os' as (_ & a0 & ? & ? & ? & Ea & _).
      exists s, (VMsg s0 u0 h0). rewrite Ea. split; [reflexivity|]. split; [apply goes_refl|]. split.
      - apply (Nw s (VMsg s0 u0 h0) h); [apply goes_refl|now left|]. rewrite Hh. apply slot_other; [|discriminate]. eapply own_mono; [|exact Os]. intros b Qb. now left.
      - split; [|eauto]. unfold tg. destruct (target_vmsg _ _ _ Ts0) as (? & ? & ? & X2). rewrite X2 in *. assumption. }
    all: assert (forall (k : unit -> D Z), dbind (dget v (f_slot f)) (fun old => dbind (match old with HNil => dec! a := hfresh sc (md_of sc m) m' in dset v (f_slot f) (HPtr a) | _ => dret tt end) k) s = k tt s1) as Eb by
      (intros k; unfold dbind in *; destruct (dget v (f_slot f) s) as [old s'| | |] eqn:Ed; try discriminate E1; now rewrite E1).
    all: rewrite Eb; clear Eb; eapply sim_trans; [exact G1|]; pose proof (ok_goes _ _ _ _ _ K G1) as K1; set (P1 := gr P s s1) in *.
    all: assert (f_slot f < length (list_set ss (f_slot f) x))%nat as Li1 by now rewrite list_set_length.
    all: pose proof (slot_write P1 s1 _ u h v (f_slot f) (proj1 K1) O1 Li1) as (a & hs & w & Q & -> & _ & Lh & HQ & Na & Os & Keep & Wr & Nw).
    all: unfold slot in Os; erewrite nth_error_nth in Os by (apply nth_error_set_eq; assumption); rewrite Hh in Os; apply own_slot_nil in Os as [Os _].
    all: rewrite (dbind_done _ _ _ _ _ (dget_done _ _ _ _ _ Na)).
    all: assert (ok Q s1 (sub p i1 post) q) as KQ by (eapply sub_ok; [|exact Zs]; eapply ok_part; [|exact K1]; intros b Qb; now apply HQ).
    all: eapply (nested_sim m m' P1 Q s1 _ _ _ _ _ (fun x' => VMsg (list_set ss (f_slot f) x') u h) (fun x' => VMsg (list_set ss' (f_slot f) x') u h')).
    all: try (apply decodeMessage_sim with (a := x); eassumption).
    all: try (intros t0 t0' _ Em; now apply (r_set _ _ _ _ _ OK _ _ _ _ _ _ _ _ _ _ _ At Ty Hl)).
    all: try (intros ? t0 t0' _ Em; now apply (e_set _ _ _ _ _ OK _ _ _ _ _ _ _ _ _ _ _ At Ty Hl)).
    all: try reflexivity.
    all: intros s2 t2 G2 O2; pose proof (Nw s2 t2 h G2 (or_introl eq_refl)) as Nw2; rewrite list_set_set, Hh in Nw2; apply Nw2.
    all: apply own_slot_nil; split; [assumption|]; intros Hp j b _; destruct Xm as (? & ? & ? & ->); apply own_msg in Os as (_ & a0 & ? & ? & ? & Ea & _); rewrite Ea; discriminate. }
  destruct lbl as [| | |pk|].
  - rewrite andb_comm in WT. discriminate WT.
  - apply One. now left.
  - apply One. now right.
  - (* repeated *)
    destruct (list_grow sc (md_of sc m) m' h (f_slot f)) as [tx hx] eqn:Egx. destruct (list_grow sc (md_of sc m) m' h' (f_slot f)) as [ty hy] eqn:Egy.
    destruct (r_grow _ _ _ _ _ OK _ _ _ _ _ _ _ _ _ _ _ _ _ At Ty Egx Egy) as (Rxy & Gr & Ge).
    assert (target sc m' ty) as Tt.
    { pose proof T as T'. apply target_iff in T' as (_ & _ & Hid & _). destruct (list_grow_target sc W m f pk (KMessage m') m' h' Hid Hf Ty eq_refl) as [Y _]. now rewrite Egy in Y. }
    destruct (r_list _ _ _ _ _ OK _ _ _ _ _ _ _ _ _ At Ty) as [Sl _].
    destruct (hlist_grow_sim P sc (md_of sc m) f m' s ss u h v tx hx) as (s1 & E1 & G1 & _ & O1); auto.
    { apply PL. }
    { apply K. }
    { intros z Hz. eapply hid_own; eauto. intros X. now rewrite X in Hz. }
    { intros Hp. destruct (nth (f_slot f) h []) eqn:En; [reflexivity|]. destruct (hid_own _ _ _ _ _ _ _ _ Lm Rab O (f_slot f)) as [[Hp' _] _]; congruence. }
    rewrite (dbind_done _ _ _ _ _ E1). set (l0 := vlist (slot ss (f_slot f))) in *.
    eapply sim_trans; [exact G1|]. pose proof (ok_goes _ _ _ _ _ K G1) as K1. set (P1 := gr P s s1) in *.
    assert (f_slot f < length (list_set ss (f_slot f) (VList (l0 ++ [tx]))))%nat as Li1 by now rewrite list_set_length.
    pose proof (slot_write P1 s1 _ u hx v (f_slot f) (proj1 K1) O1 Li1) as (a & hs & w & Q & -> & _ & Lh & HQ & Na & Os & Keep & Wr & Nw).
    unfold slot in Os. erewrite nth_error_nth in Os by (apply nth_error_set_eq; assumption).
    rewrite (dbind_done _ _ _ _ _ (dget_done _ _ _ _ _ Na)).
    assert (base Q s1) as BQ by (eapply base_part; [|apply K1]; intros b Qb; now apply HQ). pose proof BQ as (C1 & C2 & _).
    destruct (elem_focus pl ru unsafe V (heap s1) Q (l0 ++ [tx]) (nth (f_slot f) hx []) (nth (f_slot f) hs HNil) (length l0) Os) as (aa & off & cap & es & Q2 & Ea & Qa & Nn & Lc & Cc & HQ2 & Oe & Fin).
    { rewrite app_length. cbn. lia. }
    rewrite app_length, Nat.add_comm in Ea. cbn [length Nat.add] in Ea.
    rewrite app_nth2, Nat.sub_diag in Oe by lia. cbn [nth] in Oe.
    assert (elem (nth (f_slot f) hs HNil) (hlen (nth (f_slot f) hs HNil) - 1) s1 = Done (nth (off + length l0) es HNil) s1) as Ee.
    { rewrite Ea. cbn [elem hlen]. replace (Datatypes.S (length l0) - 1)%nat with (length l0) by lia.
      replace (Nat.ltb (length l0) (Datatypes.S (length l0))) with true by (symmetry; apply Nat.ltb_lt; lia). unfold acc, bind, load. now rewrite Nn. }
    rewrite (dbind_done _ _ _ _ _ Ee).
    assert (ok Q2 s1 (sub p i1 post) q) as KQ by (eapply sub_ok; [|exact Zs]; eapply ok_part; [|exact K1]; intros b Qb; now apply HQ, HQ2).
    eapply (nested_sim m m' P1 Q2 s1 _ _ _ _ _ (fun x' => VMsg (list_set ss (f_slot f) (VList (l0 ++ [x']))) u hx) (fun x' => VMsg (list_set ss' (f_slot f) (VList (vlist (slot ss' (f_slot f)) ++ [x']))) u hy)).
    + apply decodeMessage_sim with (a := tx); eassumption.
    + intros s2 t2 G2 O2. assert (goes Q s1 s2) as GQ by (eapply goes_sub; [|exact G2]; intros b _ Qb; now apply HQ2).
      pose proof (Nw s2 (VList (l0 ++ [t2])) hx GQ (or_introl eq_refl)) as Nw2. rewrite list_set_set in Nw2. apply Nw2.
      rewrite <- (list_set_last l0 tx t2). apply (Fin _ (newb s1 s2)).
      * destruct (C1 aa Qa). rewrite (goes_keep Q2 s1 s2); auto. intros X. now apply HQ2 in X.
      * intros b Hb. now destruct (new_fresh _ _ _ _ BQ GQ Hb) as (_ & _ & ? & _).
      * intros b Qb _ Nb. destruct (C1 b Qb). apply (goes_keep Q2); auto.
      * intros b Vb. eapply (goes_V Q); eauto.
      * exact O2.
    + intros t0 t0' Et. apply Gr. destruct (decodeMessage_ok1 i1 m' q ty Lqn Bq Sq Tt) as [(t' & E' & T')|(e & t' & E' & T')]; rewrite E' in Et; [|discriminate].
      injection Et as <-. destruct (target_vmsg _ _ _ T') as (? & ? & ? & ->). discriminate.
    + intros e0 t0 t0' Et. apply Ge. destruct (decodeMessage_ok1 i1 m' q ty Lqn Bq Sq Tt) as [(t' & E' & T')|(e & t' & E' & T')]; rewrite E' in Et; [discriminate|].
      injection Et as <- <-. destruct (target_vmsg _ _ _ T') as (? & ? & ? & ->). discriminate.
    + reflexivity.
  - (* oneof *)
    assert (nth (f_slot f) h [] = []) as Hh by (eapply hid_none; eauto; congruence).
    pose proof (slot_write P s ss u h v (f_slot f) (proj1 K) O Li) as (a & hs & w & Q & -> & _ & Lh & HQ & Na & Os & Keep & Wr & Nw). rewrite Hh in Os. apply own_slot_nil in Os as [Os _].
    rewrite (dbind_done _ _ _ _ _ (dget_done _ _ _ _ _ Na)). assert (base Q s) as BQ by (eapply base_part; [|apply K]; intros b Qb; now apply HQ). pose proof BQ as (C1 & C2 & _).
    assert (sim m P s (HPtr a) ((dec! a0 := hfresh sc (md_of sc m) m' in
          dec! _ := hdecodeMessage sc uunm hrec m' (sub p i1 post) (HPtr a0) in
          dec! w := acc (alloc (OWrap (f_num f) (HPtr a0))) in
          dec! _ := dset (HPtr a) (f_slot f) (HPtr w) in dret post) s)
       (do v' <- (do x' <- drop_state (VMsg ss' u h') (decodeMessage sc rc i1 m' q (new_msg (md_of sc m'))); orpanic (set_slot (VMsg ss' u h') (f_slot f) (VOneof (f_num f) x'))); Ok (v', post))) as Fresh.
    { destruct (fresh_sim sc s (md_of sc m) m' Bn) as (s1 & a1 & x & E1 & G1 & O1 & Hx). rewrite (dbind_done _ _ _ _ _ E1).
      assert (ok none s (sub p i1 post) q) as Kn by (eapply ok_part; [|eapply sub_ok; eassumption]; intros b []).
      pose proof (new_decode_sim s s1 m' (sub p i1 post) q i1 x _ _ Lqn Bq Sq Kn G1 O1 (fresh_rel _ _ Hx) (target_new sc W m')) as D0.
      destruct (decodeMessage sc rc i1 m' q (new_msg (md_of sc m'))) as [t|e t| |]; cbn [drop_state rbind]; try exact I.
      - destruct D0 as (s2 & x' & E2 & G2 & O2 & R2). rewrite (dbind_done _ _ _ _ _ E2), (dbind_done _ _ _ _ _ (alloc_done _ _)). cbn [set_slot orpanic rbind].
        assert (goes none s (with_heap s2 (heap s2 ++ [OWrap (f_num f) (HPtr a1)]))) as G3 by (eapply none_trans; [exact G2|apply goes_alloc]).
        destruct (Wr _ (VOneof (f_num f) x') h (HPtr (length (heap s2))) (goes_none Q _ _ G3) (or_introl eq_refl)) as (s' & E' & _ & _ & G' & O').
        + rewrite Hh. apply slot_other; [|discriminate]. eapply own_mono; [|eapply own_box; [exact Bn|exact G2|exact O2|right; eauto]]. intros b Hb. now right.
        + rewrite (dbind_done _ _ _ _ _ E'). eexists s', _. split; [reflexivity|]. split; [assumption|]. split; [exact O'|].
          now apply (r_member _ _ _ _ _ OK _ _ _ _ _ _ _ _ _ _ At Ty).
      - destruct D0 as (s2 & E2 & G2). unfold dbind. rewrite E2. exists s2, (VMsg ss u h). split; [reflexivity|]. split; [now apply goes_none|]. split; [|now apply (r_err _ _ _ _ _ OK)].
        eapply own_mono; [|eapply (own_later P); [apply K|exact G2|exact O]]. intros b Hb. now left. }
    destruct (r_oneof _ _ _ _ _ OK _ _ _ _ _ _ _ _ At Ty) as [[X X']|(n & y & y' & X & X' & Ry)]; rewrite X, X' in *.
    + cbn [owns] in Os. rewrite Os. unfold dbind at 1. cbn [dret]. exact Fresh.
    + cbn [owns] in Os. destruct Os as (wa & y0 & Ea & Qw & Nw0 & Oy). rewrite Ea in *.
      assert (acc (let! o := load wa in match o with OWrap n x => ret (if n =? f_num f then Some x else None) | _ => fail end) s = Done (if n =? f_num f then Some y0 else None) s) as El.
      { unfold acc, bind, load. now rewrite Nw0. }
      rewrite (dbind_done _ _ _ _ _ El). destruct (n =? f_num f) eqn:En; [|exact Fresh]. assert (n = f_num f) as -> by lia.
      set (Q2 := fun b => Q b /\ b <> wa) in *.
      assert (ok Q2 s (sub p i1 post) q) as KQ by (eapply sub_ok; [|exact Zs]; eapply ok_part; [|exact K]; intros b [Qb _]; now apply HQ).
      eapply (nested_sim m m' P Q2 s _ _ _ _ _ (fun x' => VMsg (list_set ss (f_slot f) (VOneof (f_num f) x')) u h) (fun x' => VMsg (list_set ss' (f_slot f) (VOneof (f_num f) x')) u h')).
      * apply decodeMessage_sim with (a := y); try eassumption; [eapply (slot_oneof sc W m f (KMessage m')); eauto|auto].
      * intros s2 t2 G2 O2. destruct (C1 _ Qw) as [Lw Uw]. assert (goes Q s s2) as GQ by (eapply goes_sub; [|exact G2]; intros b _ []; assumption). apply (Nw s2 _ h GQ (or_introl eq_refl)).
        rewrite Hh. apply slot_other; [|discriminate]. cbn [owns]. exists wa, y0. split; [reflexivity|]. split; [now left|]. split; [rewrite (goes_keep Q2 s s2); auto; now intros []|].
        eapply own_mono; [|exact O2]. intros b [[Qb Nb]|Hb]; [split; [now left|assumption]|]. split; [now right|]. intros ->. now destruct (new_fresh _ _ _ _ BQ GQ Hb) as (_ & _ & ? & _).
      * intros t0 t0' _ Em. now apply (r_member _ _ _ _ _ OK _ _ _ _ _ _ _ _ _ _ At Ty).
      * intros ? t0 t0' _ Em. now apply (e_member _ _ _ _ _ OK _ _ _ _ _ _ _ _ _ _ At Ty).
      * reflexivity.
Qed.

(** * Fields *)
Lemma group_sim P m f m' wire p d start s a b v : Z.land wire 7 = 3 -> ok P s p d -> own (heap s) P a v -> R m a b -> forall fuel i,
  sim m P s v (hgroup_loop sc uunm hrec fuel f m' wire p start i v s) (group_loop sc rc fuel f m' wire d start i b).
Proof.
  intros Hw K O Rab. induction fuel as [|fuel IH]; intros i; [exact I|]. cbn [hgroup_loop group_loop]. cbv zeta.
  rewrite (dbind_done _ _ _ _ _ (data_ok _ _ _ _ K)). eapply sim_calc; [exact O|exact Rab|]. intros [w i1] _.
  rewrite Hw. change (3 =? 4) with false. cbv iota. apply sim_orpanic. intros rest _. eapply sim_calc; [exact O|exact Rab|]. intros n _.
  destruct ((n <? 0) || (s64 (i1 + n) <? 0)); [eapply sim_err; eassumption|apply IH].
Qed.
Lemma stored_sim P m f lbl k s ss u h ss' h' v x hx (post : Z) : base P s -> at_field m f ss u h ss' h' -> f_ty f = TField lbl k -> leaf k x -> x <> VNil -> k <> KBytes ->
  own (heap s) P (VMsg ss u h) v -> own (heap s) (since s s) x hx ->
  sim m P s v (dbind (hstore grow f lbl hx v) (fun _ => dret post) s) (do v' <- orpanic (store f lbl k x (VMsg ss' u h')); Ok (v', post)).
Proof.
  intros B At Ty Lx Nx Nk O Ox. destruct (at_slots _ _ _ _ _ _ _ At) as [Li Li'].
  pose proof (r_store _ _ _ _ _ OK _ _ _ _ _ _ _ _ _ _ At Ty Lx Nx) as St. pose proof At as (Lm & Hf & Rab & T).
  assert (nth (f_slot f) h [] = []) as Hh.
  { eapply hid_none; eauto. intros p0 k0 m0 Ht Hs. rewrite Ty in Ht. injection Ht as _ ->. destruct Lx as [[Hn _]|[[-> _]|[-> _]]]; try discriminate Hs. destruct k0; discriminate. }
  destruct (store f lbl k x (VMsg ss' u h')) as [b'|] eqn:Eb; cbn [orpanic rbind]; [|exact I].
  destruct (store f lbl k x (VMsg ss u h)) as [a'|] eqn:Ea; [|contradiction].
  destruct (hstore_sim P f lbl k s s v ss u h a' x hx B Li Hh) as (s' & E' & G' & O'); auto.
  - intros p0 ->. eapply (r_list _ _ _ _ _ OK); eauto.
  - apply goes_refl.
  - intros l ->. destruct Lx as [[_ [? ?]]|[[_ [? ?]]|[_ [?|[? ?]]]]]; discriminate.
  - congruence.
  - rewrite (dbind_done _ _ _ _ _ E'). exists s', a'. auto.
Qed.
Definition hnum_item f lbl k p i v : D Z := dec! d := data p in dec! _ := hnumber_start f lbl k d i v in dec! (z, i) := calc (decodeNumber k 0 d i) in dec! _ := hstore grow f lbl (HInt z) v in dret i.
Lemma hnum_item_eq md f lbl k wire p i v : is_num k = true -> hfieldItem sc unsafe grow uunm hrec md f lbl k wire p i v = hnum_item f lbl k p i v.
Proof. destruct k; try discriminate; reflexivity. Qed.
Lemma number_sim P m f lbl k (d : list Z) i s ss u h ss' h' v : is_num k = true -> at_field m f ss u h ss' h' -> f_ty f = TField lbl k -> base P s ->
  own (heap s) P (VMsg ss u h) v ->
  sim m P s v (dbind (calc (decodeNumber k 0 d i)) (fun zi => let (z, i) := zi in dbind (hstore grow f lbl (HInt z) v) (fun _ => dret i)) s)
    (do r <- lift (VMsg ss' u h') (decodeNumber k 0 d i); do v' <- orpanic (store f lbl k (VInt (fst r)) (VMsg ss' u h')); Ok (v', snd r)).
Proof.
  intros Nk At Ty K O.
  eapply sim_calc; [exact O|apply At|]. intros [z j] _. cbn [fst snd]. eapply stored_sim; eauto; [left; eauto|discriminate|destruct k; discriminate|reflexivity].
Qed.
Lemma num_item_sim P m f lbl k p d i s ss u h ss' h' v : is_num k = true -> at_field m f ss u h ss' h' -> f_ty f = TField lbl k -> ok P s p d ->
  own (heap s) P (VMsg ss u h) v -> sim m P s v (hnum_item f lbl k p i v s) (num_item f lbl k d i (VMsg ss' u h')).
Proof.
  intros Nk At Ty K O. unfold hnum_item, num_item. rewrite (dbind_done _ _ _ _ _ (data_ok _ _ _ _ K)).
  rewrite number_start_store. unfold hnumber_start. destruct (in_place lbl k) eqn:Pl.
  - pose proof (in_place_implicit _ _ Pl) as ->. fold (left_number k d i). pose proof At as (Lm & Hf & Rab & T).
    destruct (store_target sc W m f LImplicit k (VInt (left_number k d i)) _ T Hf Ty) as (t1 & Et & T1);
      [destruct k; try discriminate Nk; reflexivity|constructor; now apply left_range|discriminate|].
    pose proof (stored_sim P m f LImplicit k s ss u h ss' h' v (VInt (left_number k d i)) (HInt (left_number k d i)) i (proj1 K) At Ty) as S1.
    specialize (S1 ltac:(left; eauto) ltac:(discriminate) ltac:(destruct k; discriminate) O ltac:(reflexivity)).
    rewrite Et in S1 |- *. cbn [orpanic rbind sim] in S1 |- *. destruct S1 as (s1 & a1 & E1 & G1 & O1 & R1).
    unfold dbind at 1 in E1. change (dset v (f_slot f) (HInt (left_number k d i))) with (hstore grow f LImplicit (HInt (left_number k d i)) v).
    destruct (hstore grow f LImplicit (HInt (left_number k d i)) v s) as [[] s1'| | |] eqn:E0; try discriminate E1. injection E1 as ->. rewrite (dbind_done _ _ _ _ _ E0).
    destruct (R_shape _ _ _ Lm T1 R1) as (ss1 & u1 & h1 & ss1' & h1' & -> & -> & Ls1).
    eapply sim_trans; [exact G1|]. apply (number_sim (gr P s s1) m f LImplicit k d i s1 ss1 u1 h1 ss1' h1' v Nk); auto; [split; auto|].
    now apply base_goes; [apply K|].
  - cbn [orpanic rbind]. rewrite (dbind_done _ _ _ _ _ (eq_refl : dret tt s = Done tt s)). eapply number_sim; eauto. apply K.
Qed.
Lemma fieldItem_sim P m f lbl k wire p d i s ta tb v : loc m -> In f (md_fields (md_of sc m)) -> f_ty f = TField lbl k -> (is_group k = true -> Z.land wire 7 = 3) ->
  ok P s p d -> bytes_ok d = true -> small d -> (length d <= N)%nat -> 0 <= i <= zlen d -> target sc m tb -> R m ta tb -> own (heap s) P ta v ->
  sim m P s v (hfieldItem sc unsafe grow uunm hrec (md_of sc m) f lbl k wire p i v s) (fieldItem sc rc env (md_of sc m) f lbl k wire d i tb).
Proof.
  intros Lm Hf Ty Hg K B S Ln Hi T Rab O.
  destruct (R_shape _ _ _ Lm T Rab) as (ss & u & h & ss' & h' & -> & -> & Ls). assert (at_field m f ss u h ss' h') as At by (split; [assumption|]; split; [assumption|]; split; assumption).
  destruct (at_slots _ _ _ _ _ _ _ At) as [Li Li'].
  destruct (is_num k) eqn:Nk; [rewrite (num_item_eq sc rc env) by assumption; rewrite hnum_item_eq by assumption; eapply num_item_sim; eauto|].
  destruct k; try discriminate Nk; unfold hfieldItem, fieldItem; cbn [classify].
  - (* string *) rewrite (dbind_done _ _ _ _ _ (data_ok _ _ _ _ K)). eapply sim_calc; [exact O|exact Rab|]. intros [i1 post] E.
    destruct (len_at _ _ _ _ _ B S Hi E) as (q & Zs & _). rewrite Zs. cbn [orpanic rbind]. destruct (hstring_sim _ _ _ _ _ _ _ K Zs) as (x & Ex & Ox). rewrite (dbind_done _ _ _ _ _ Ex).
    cbn [ue_str safe_env]. eapply stored_sim; eauto; [apply K|right; left; eauto|discriminate|discriminate].
  - (* group *) rewrite (len_ok _ _ _ _ K). eapply group_sim; eauto.
  - (* message *) eapply message_item_sim; eauto.
  - (* bytes *) rewrite (dbind_done _ _ _ _ _ (data_ok _ _ _ _ K)). eapply sim_calc; [exact O|exact Rab|]. intros [i1 post] E.
    destruct (len_at _ _ _ _ _ B S Hi E) as (q & Zs & _). rewrite Zs. cbn [orpanic rbind ue_bytes safe_env].
    assert (leaf KBytes (VBytes q)) as Lx by (right; right; eauto).
    pose proof (r_store _ _ _ _ _ OK _ _ _ _ _ _ _ _ _ (VBytes q) At Ty Lx ltac:(discriminate)) as St.
    destruct (store f lbl KBytes (VBytes q) (VMsg ss' u h')) as [b'|] eqn:Eb; cbn [orpanic rbind]; [|exact I].
    destruct (store f lbl KBytes (VBytes q) (VMsg ss u h)) as [a'|] eqn:Ea; [|contradiction].
    destruct (bytes_item_sim P f lbl s p d i1 post q v ss u h a' K Li) as (s' & E' & G' & O'); auto.
    + eapply hid_none; eauto. intros p0 k0 m0 Ht Hs. rewrite Ty in Ht. injection Ht as _ <-. discriminate Hs.
    + intros p0 ->. eapply (r_list _ _ _ _ _ OK); eauto.
    + intros. eapply (r_bytes _ _ _ _ _ OK); eauto.
    + rewrite (dbind_done _ _ _ _ _ E'). exists s', a'. auto.
Qed.
Lemma fieldItem_ok1 m f lbl k wire d i t t' j : In f (md_fields (md_of sc m)) -> f_ty f = TField lbl k -> is_group k = false ->
  bytes_ok d = true -> small d -> (length d <= N)%nat -> 0 <= i <= zlen d -> target sc m t ->
  fieldItem sc rc env (md_of sc m) f lbl k wire d i t = Ok (t', j) -> target sc m t' /\ i < j <= zlen d.
Proof.
  intros Hf Ty Hg B S Ln Hi T E. destruct (view_at d i B S Hi) as (rest & Vw & Lr).
  assert (length rest <= N)%nat as Lrn by (unfold zlen in *; lia).
  destruct (fieldItem_par sc W U N rec rec Hrec m f lbl k wire d d i i rest [] t Hf Ty ltac:(congruence) Vw Lrn T) as [(c & s2 & v' & Er & Nc & E1 & _ & Tv)|(e & st & E1 & _)]; [|congruence].
  rewrite E in E1. injection E1 as -> ->. split; [assumption|]. rewrite Er, zlen_app in Lr. pose proof (zlen_nonneg s2).
  assert (0 < zlen c) by (destruct c; [contradiction|rewrite zlen_cons; pose proof (zlen_nonneg c); lia]). lia.
Qed.
Lemma packed_loop_sim m f lbl k wire p d post : loc m -> In f (md_fields (md_of sc m)) -> f_ty f = TField lbl k -> is_group k = false ->
  bytes_ok d = true -> small d -> (length d <= N)%nat -> forall fuel P s i a b v, ok P s p d -> 0 <= i <= zlen d -> target sc m b -> R m a b -> own (heap s) P a v ->
  sim m P s v (hpacked_loop sc unsafe grow uunm hrec fuel (md_of sc m) f lbl k wire p i post v s) (packed_loop sc rc env fuel (md_of sc m) f lbl k wire d i post b).
Proof.
  intros Lm Hf Ty Hg B S Ln. induction fuel as [|fuel IH]; intros P s i a b v K Hi T Rab O; [exact I|]. cbn [hpacked_loop packed_loop]. destruct (i <? post).
  - eapply sim_seq; [eapply fieldItem_sim; eauto; congruence|]. intros b1 j a1 s1 E E1 G1 O1 R1. cbn [fst snd].
    destruct (fieldItem_ok1 m f lbl k wire d i b b1 j Hf Ty Hg B S Ln Hi T E) as [T1 Hj]. eapply IH; eauto; [eapply ok_goes; eauto|lia].
  - exists s, a. split; [reflexivity|]. split; [apply goes_refl|]. split; [now apply own_gr|assumption].
Qed.
Lemma num_item_empty f pk k d i ss u h : (f_slot f < length ss)%nat -> vlist (slot ss (f_slot f)) = [] ->
  match num_item f (LRepeated pk) k d i (VMsg ss u h) with
  | Err e t => t = VMsg ss u h /\ decodeNumber k 0 d i = Err e tt
  | r => num_item f (LRepeated pk) k d i (VMsg (list_set ss (f_slot f) (VList [])) u h) = r
  end.
Proof.
  intros Li X. unfold num_item, number_start. cbn [in_place orpanic rbind]. destruct (decodeNumber k 0 d i) as [[z j]|e []| |]; cbn [lift rbind fst snd]; auto.
  unfold store. cbn [set_slot get_slot orpanic rbind]. rewrite X. unfold slot. erewrite nth_error_nth by (apply nth_error_set_eq; assumption). cbn [vlist]. now rewrite list_set_set.
Qed.
Lemma packable_num m f lbl k : In f (md_fields (md_of sc m)) -> f_ty f = TField lbl k -> packable lbl k = true -> exists pk, lbl = LRepeated pk /\ is_num k = true.
Proof.
  intros Hf Ty Pk. pose proof (wf_ty sc m f W Hf) as WT. rewrite Ty in WT. destruct lbl as [| | |pk|]; try discriminate Pk. exists pk. split; [reflexivity|].
  destruct k; try reflexivity; try discriminate Pk. cbn in WT. rewrite !andb_false_r in WT. discriminate WT.
Qed.
Lemma wt_empty_list m f pk k ss u h : In f (md_fields (md_of sc m)) -> f_ty f = TField (LRepeated pk) k -> target sc m (VMsg ss u h) -> target sc m (VMsg (list_set ss (f_slot f) (VList [])) u h).
Proof.
  intros Hf Ty T. apply target_set; auto.
  - eapply wt_list; [exact Ty|]. intros x [].
  - eapply mg_rep; eauto.
  - unfold is_oneof. rewrite Ty. discriminate.
Qed.
Lemma packed_sim P m f pk k wire p d i post q s ta tb v : loc m -> In f (md_fields (md_of sc m)) -> f_ty f = TField (LRepeated pk) k -> is_num k = true ->
  ok P s p d -> bytes_ok d = true -> small d -> (length d <= N)%nat -> 0 <= i <= zlen d -> target sc m tb -> R m ta tb -> own (heap s) P ta v -> zslice d i post = Some q ->
  sim m P s v (dbind (prealloc (md_of sc m) f k q v) (fun _ => hpacked_loop sc unsafe grow uunm hrec (S (length d)) (md_of sc m) f (LRepeated pk) k wire p i post v) s)
    (packed_loop sc rc env (S (length d)) (md_of sc m) f (LRepeated pk) k wire d i post tb).
Proof.
  intros Lm Hf Ty Nk K B Sm Ln Hi T Rab O Zs. destruct (zslice_inv _ _ _ _ Zs) as (_ & _ & _ & _ & Lq).
  destruct (R_shape _ _ _ Lm T Rab) as (ss & u & h & ss' & h' & -> & -> & Ls). assert (at_field m f ss u h ss' h') as At by (split; [assumption|]; split; [assumption|]; split; assumption).
  destruct (at_slots _ _ _ _ _ _ _ At) as [Li Li'].
  assert (is_group k = false) as Hg by (destruct k; try discriminate Nk; reflexivity).
  assert (nth (f_slot f) h [] = []) as Hh.
  { eapply hid_none; eauto. intros p0 k0 m0 Ht Hs. rewrite Ty in Ht. injection Ht as _ <-. destruct k; discriminate. }
  destruct (r_list _ _ _ _ _ OK _ _ _ _ _ _ _ _ _ At Ty) as [Sl El].
  destruct (prealloc_sim P (md_of sc m) f k q s ss u h v (proj1 K) Li Hh Sl O) as (s1 & x & E1 & G1 & _ & O1 & Hx). rewrite (dbind_done _ _ _ _ _ E1).
  pose proof (ok_goes _ _ _ _ _ K G1) as K1.
  destruct Hx as [->|(X & -> & Nq)].
  - unfold slot in O1. rewrite list_set_same in O1 by assumption. eapply sim_trans; [exact G1|]. eapply packed_loop_sim; eauto.
  - eapply sim_trans; [exact G1|]. pose proof (r_empty _ _ _ _ _ OK _ _ _ _ _ _ _ _ _ At Ty X) as R1. pose proof (e_empty _ _ _ _ _ OK _ _ _ _ _ _ _ _ _ At Ty X) as R2.
    pose proof (packed_loop_sim m f (LRepeated pk) k wire p d post Lm Hf Ty Hg B Sm Ln (S (length d)) _ s1 i _ _ v K1 Hi (wt_empty_list _ _ _ _ _ _ _ Hf Ty T) R1 O1) as L.
    cbn [packed_loop hpacked_loop] in *.
    assert (i <? post = true) as Hip by (assert (0 < zlen q) by (destruct q; [contradiction|rewrite zlen_cons; pose proof (zlen_nonneg q); lia]); lia). rewrite Hip in *.
    rewrite num_item_eq in * by assumption. rewrite X in El. cbn [vlist length] in El.
    pose proof (num_item_empty f pk k d i ss' u h' Li' ltac:(now apply length_zero_iff_nil)) as NE.
    destruct (num_item f (LRepeated pk) k d i (VMsg ss' u h')) as [[t' j]|e t'| |] eqn:En; cbn [rbind]; try exact I.
    + rewrite NE in L. exact L.
    + destruct NE as [-> Ed]. rewrite hnum_item_eq by assumption. unfold dbind at 1. unfold hnum_item. rewrite (dbind_done _ _ _ _ _ (data_ok _ _ _ _ K1)), Ed. unfold dbind. cbn [calc].
      exists s1, (VMsg (list_set ss (f_slot f) (VList [])) u h). split; [reflexivity|]. split; [apply goes_refl|].
      split; [now apply own_gr|assumption].
Qed.
Lemma field_sim P m f wire p d i s ta tb v : loc m -> In f (md_fields (md_of sc m)) -> ok P s p d -> bytes_ok d = true -> small d -> (length d <= N)%nat ->
  0 <= i <= zlen d -> target sc m tb -> R m ta tb -> own (heap s) P ta v ->
  sim m P s v (hfield sc unsafe grow uunm hrec (md_of sc m) f wire p i v s) (um_field sc rc env (md_of sc m) f wire d i tb).
Proof.
  intros Lm Hf K B S Ln Hi T Rab O. unfold hfield, um_field. cbv zeta.
  assert (forall e, sim m P s v (@derr Z e s) (Err e tb)) as Er by (intros e; eapply sim_err; eassumption).
  destruct (f_ty f) as [lbl k|kk vk] eqn:Ty.
  - destruct (packable lbl k) eqn:Pk.
    + destruct (packable_num _ _ _ _ Hf Ty Pk) as (pk & -> & Nk).
      assert (is_group k = false) as Hg by (destruct k; try discriminate Nk; reflexivity).
      destruct (Z.land wire 7 =? ProtoWireType k); [eapply fieldItem_sim; eauto; congruence|].
      destruct (Z.land wire 7 =? 2); [|apply Er]. rewrite (dbind_done _ _ _ _ _ (data_ok _ _ _ _ K)).
      eapply sim_calc; [exact O|exact Rab|]. intros [i1 post] E. destruct (len_at _ _ _ _ _ B S Hi E) as (q & Zs & Lq & H1 & H2 & Bq & Sq).
      rewrite (dbind_done _ _ _ _ _ (data_ok _ _ _ _ (sub_ok _ _ _ _ _ _ _ K Zs))), (len_ok _ _ _ _ K). eapply packed_sim; eauto. lia.
    + destruct (Z.land wire 7 =? ProtoWireType k) eqn:Ew; [|apply Er]. eapply fieldItem_sim; eauto.
      intros Hg. destruct k; try discriminate Hg. cbn in Ew. lia.
  - destruct (Z.land wire 7 =? 2); [|apply Er]. eapply map_item_sim; eauto.
Qed.

(** * The message loop *)
Lemma in_ext_some md num : in_ext md num = true -> md_ext md <> [].
Proof. unfold in_ext. destruct (md_ext md); [discriminate|discriminate]. Qed.
Lemma unknown_sim P m num p d i s ta tb v : loc m -> ok P s p d -> target sc m tb -> R m ta tb -> own (heap s) P ta v ->
  sim m P s v (hunknown sc grow uext m num p i v s) (um_unknown sc m num d i tb).
Proof.
  intros Lm K T Rab O. unfold hunknown, um_unknown. cbv zeta.
  rewrite (dbind_done _ _ _ _ _ (data_ok _ _ _ _ K)). apply sim_orpanic. intros rest _. eapply sim_calc; [exact O|exact Rab|]. intros n _.
  destruct ((n <? 0) || (s64 (i + n) <? 0)); [eapply sim_err; eassumption|]. destruct (zlen d <? s64 (i + n)); [eapply sim_err; eassumption|].
  apply sim_orpanic. intros raw _. destruct (in_ext (md_of sc m) num) eqn:Ex.
  - assert (forall t, up_ext (sc_up sc) m raw = Some t -> R m t t) as Hd by (intros t; now apply (r_ext _ _ _ _ _ OK)).
    pose proof (call_up_sim _ _ _ P m raw s ta tb v UE (in_ext_some _ _ Ex) (proj1 K) T Rab O Hd) as C. destruct (target_vmsg _ _ _ T) as (ss & u & h & ->).
    unfold dbind. destruct (up_ext (sc_up sc) m raw) as [t'|]; cbn [sim] in *.
    + destruct C as (s' & a' & E & C). rewrite E. exists s', a'. split; [reflexivity|assumption].
    + destruct C as (s' & a' & E & C). rewrite E. exists s', a'. split; [reflexivity|assumption].
  - destruct (md_keep (md_of sc m)).
    + destruct (R_shape _ _ _ Lm T Rab) as (ss & u & h & ss' & h' & -> & -> & Ls). pose proof K as ((B1 & B2 & B3) & _ & _).
      destruct (unk_focus pl ru unsafe V _ _ _ _ _ _ O) as (a & hs & w & Q & -> & Pa & Na & HQ & Ou & Fin).
      assert (base Q s) as BQ by (eapply base_part; [|apply K]; intros b Qb; now apply HQ).
      assert (acc (get_unk a) s = Done w s) as Eg by (unfold acc, get_unk, bind, load; now rewrite Na). rewrite (dbind_done _ _ _ _ _ Eg).
      destruct (happend_bytes_sim Q s u raw w BQ Ou) as (s1 & w' & E1 & G1 & O1 & _). rewrite (dbind_done _ _ _ _ _ E1).
      assert (~ Q a) as NQa by (intros X; now apply HQ in X). pose proof (at_lt _ _ _ Na) as La. destruct (B1 a Pa) as [_ Ua].
      assert (goes P s s1) as GP by (eapply goes_sub; [|exact G1]; intros b _ Qb; now apply HQ).
      assert (nth_error (heap s1) a = Some (OMsg hs w)) as Na1 by (rewrite (goes_keep Q s s1); auto).
      assert (acc (set_unk a w') s1 = Done tt (with_heap s1 (list_set (heap s1) a (OMsg hs w')))) as Es.
      { unfold acc, set_unk, bind, load. rewrite Na1. unfold Heap.store. replace (Nat.ltb a (length (heap s1))) with true by (symmetry; apply Nat.ltb_lt; eapply at_lt; eassumption). reflexivity. }
      rewrite (dbind_done _ _ _ _ _ Es). cbn [add_unknown orpanic rbind sim]. set (s2 := with_heap s1 _).
      assert (forall b, newb s s2 b = newb s s1 b) as Eb by (intros b; unfold newb, drew, pooled; cbn [s2 with_heap heap free]; now rewrite list_set_length).
      exists s2, (VMsg ss (u ++ raw) h). split; [reflexivity|]. split; [|split].
      * eapply goes_trans; [exact GP|]. apply goes_set. now left.
      * eapply own_mono; [|eapply (Fin (heap s2) (newb s s1) _ w')].
        -- intros b [Pb|Hb]; [now left|right]. now rewrite Eb.
        -- cbn [s2 with_heap heap]. eapply set_at; eassumption.
        -- intros b Hb. now destruct (new_fresh _ _ _ _ (proj1 K) GP Hb) as (_ & _ & ? & _).
        -- intros b Pb Nb Qb. cbn [s2 with_heap heap]. rewrite nth_error_set_neq by congruence. destruct (B1 b Pb). eapply (goes_keep Q); eauto.
        -- intros b Vb. destruct (B2 b Vb) as (? & ? & ?). cbn [s2 with_heap heap]. rewrite nth_error_set_neq by congruence. eapply (goes_V P); eauto. apply K.
        -- destruct O1 as [[-> ->]|O1]; [now left|right]. cbn [s2 with_heap heap]. eapply bytes_keep; [|exact O1]. intros b Hb. split; [exact Hb|]. apply nth_error_set_neq. intros <-. destruct Hb as [Hb|Hb]; [auto|].
           now destruct (new_fresh _ _ _ _ (proj1 K) GP Hb) as (_ & _ & ? & _).
      * now apply (r_unk _ _ _ _ _ OK).
    + exists s, ta. split; [reflexivity|]. split; [apply goes_refl|]. split; [now apply own_gr|assumption].
Qed.
Definition regroup (r : res val (val * Z * list Z)) : res val (val * (Z * list Z)) := do x <- r; let '(t, i, has) := x in Ok (t, (i, has)).
Lemma sim_then {A B} m P s v (x : D A) (r : res val (val * A)) (g : A -> B) : sim m P s v (x s) r ->
  sim m P s v (dbind x (fun a => dret (g a)) s) (do y <- r; Ok (fst y, g (snd y))).
Proof.
  intros H. destruct r as [[t a]|e t| |]; cbn [sim rbind fst snd] in *; auto.
  - destruct H as (s' & t' & E & H). unfold dbind. rewrite E. exists s', t'. split; [reflexivity|assumption].
  - destruct H as (s' & t' & E & H). unfold dbind. rewrite E. exists s', t'. split; [reflexivity|assumption].
Qed.
Lemma step_sim P m p d i s ta tb v has : loc m -> ok P s p d -> bytes_ok d = true -> small d -> (length d <= N)%nat -> 0 <= i <= zlen d -> target sc m tb -> R m ta tb -> own (heap s) P ta v ->
  sim m P s v (hstep sc unsafe grow uunm uext hrec m p i v has s) (regroup (um_step sc rc env m d i tb has)).
Proof.
  intros Lm K B S Ln Hi T Rab O. unfold hstep, um_step, regroup. cbv zeta.
  rewrite (dbind_done _ _ _ _ _ (data_ok _ _ _ _ K)). unfold rbind at 1.
  destruct (decodeVarint u64 0 d i) as [[wire i1]|e []| |] eqn:Ew; cbn [lift rbind]; try exact I.
  2:{ unfold dbind. cbn [calc]. eapply sim_err; eassumption. }
  unfold dbind at 1. cbn [calc]. pose proof (varint_at _ _ _ _ B S Hi Ew) as Hi1.
  destruct (Z.land wire 7 =? 4); [eapply sim_err; eassumption|]. destruct (s32 (Z.shiftr wire 3) <=? 0); [eapply sim_err; eassumption|].
  destruct (find_field (s32 (Z.shiftr wire 3)) (md_fields (md_of sc m))) as [f|] eqn:Ef.
  - apply find_some in Ef as [Hf _]. pose proof (field_sim P m f wire p d i1 s ta tb v Lm Hf K B S Ln ltac:(lia) T Rab O) as F.
    pose proof (sim_then m P s v _ _ (fun i => (i, has_set (md_of sc m) f has)) F) as F'. destruct (um_field _ _ _ _ _ _ _ _ _) as [[t' j]| | |]; exact F'.
  - pose proof (unknown_sim P m (s32 (Z.shiftr wire 3)) p d i s ta tb v Lm K T Rab O) as F.
    pose proof (sim_then m P s v _ _ (fun i => (i, has)) F) as F'. destruct (um_unknown _ _ _ _ _ _) as [[t' j]| | |]; exact F'.
Qed.
Lemma step_ok1 m d i t has t' j has' : bytes_ok d = true -> small d -> (length d <= N)%nat -> 0 <= i <= zlen d -> target sc m t ->
  um_step sc rc env m d i t has = Ok (t', j, has') -> target sc m t' /\ i < j <= zlen d.
Proof.
  intros B S Ln Hi T E. destruct (view_at d i B S Hi) as (rest & Vw & Lr). assert (length rest <= N)%nat as Lrn by (unfold zlen in *; lia).
  destruct (um_step_par sc W U N rec rec Hrec m d d i i rest [] t has Vw B B Lrn T) as [(c & s2 & v' & h' & Er & Nc & Tv & E1 & _)|(e & st & E1 & _)]; [|congruence].
  rewrite E in E1. injection E1 as -> -> _. split; [assumption|]. rewrite Er, zlen_app in Lr. pose proof (zlen_nonneg s2).
  assert (0 < zlen c) by (destruct c; [contradiction|rewrite zlen_cons; pose proof (zlen_nonneg c); lia]). lia.
Qed.
Lemma loop_sim m p d : loc m -> bytes_ok d = true -> small d -> (length d <= N)%nat -> forall fuel P s i a b v has, ok P s p d -> 0 <= i <= zlen d -> target sc m b -> R m a b -> own (heap s) P a v ->
  sim m P s v (hloop sc unsafe grow uunm uext hrec fuel m p i v has s) (regroup (um_loop sc rc env fuel m d i b has)).
Proof.
  intros Lm B S Ln. induction fuel as [|fuel IH]; intros P s i a b v has K Hi T Rab O; [exact I|]. cbn [hloop um_loop]. rewrite (len_ok _ _ _ _ K). change (Z.of_nat (length d)) with (zlen d).
  destruct (i <? zlen d).
  - pose proof (step_sim P m p d i s a b v has Lm K B S Ln Hi T Rab O) as St. pose proof (step_ok1 m d i b has) as Sk.
    destruct (um_step sc rc env m d i b has) as [[[t' j] has']|e t'| |]; cbn [regroup rbind] in *; try exact I.
    + cbn [sim] in St. destruct St as (s1 & a1 & E1 & G1 & O1 & R1). rewrite (dbind_done _ _ _ _ _ E1). destruct (Sk _ _ _ B S Ln Hi T eq_refl) as [T' Hj].
      eapply sim_trans; [exact G1|]. eapply IH; eauto; [eapply ok_goes; eauto|lia].
    + cbn [sim] in St |- *. destruct St as (s1 & t1 & E1 & St). unfold dbind. rewrite E1. exists s1, t1. auto.
  - exists s, a. split; [reflexivity|]. split; [apply goes_refl|]. split; [now apply own_gr|assumption].
Qed.
Lemma body_sim P m p d s a b v : loc m -> bytes_ok d = true -> small d -> (length d <= N)%nat -> ok P s p d -> target sc m b -> R m a b -> own (heap s) P a v ->
  sim m P s v (hbody sc unsafe grow uunm uext hrec m p v s) (unit_of (um_body sc rc env m d b)).
Proof.
  intros Lm B S Ln K T Rab O. unfold hbody, um_body. cbv zeta. rewrite (len_ok _ _ _ _ K). change (Z.of_nat (length d)) with (zlen d).
  pose proof (loop_sim m p d Lm B S Ln (Datatypes.S (length d)) P s 0 a b v (has_init (md_of sc m)) K ltac:(pose proof (zlen_nonneg d); lia) T Rab O) as L.
  destruct (um_loop sc rc env (Datatypes.S (length d)) m d 0 b (has_init (md_of sc m))) as [[[t' j] has']|e t'| |]; cbn [regroup rbind unit_of] in *; try exact I.
  - cbn [sim] in L. destruct L as (s1 & a1 & E1 & G1 & O1 & R1). rewrite (dbind_done _ _ _ _ _ E1). eapply sim_trans; [exact G1|].
    destruct (negb _); [cbn [unit_of rbind]; eapply sim_err; eassumption|]. destruct (zlen d <? j); [cbn [unit_of rbind]; eapply sim_err; eassumption|].
    cbn [unit_of rbind sim]. exists s1, a1. split; [reflexivity|]. split; [apply goes_refl|]. split; [now apply own_gr|assumption].
  - cbn [sim] in L |- *. destruct L as (s1 & t1 & E1 & L). unfold dbind. rewrite E1. exists s1, t1. auto.
Qed.
End Level.

Lemma hum_sim : forall n P m p d s a b v, loc m -> (length d < n)%nat -> bytes_ok d = true -> small d -> target sc m b -> R m a b -> ok P s p d -> own (heap s) P a v ->
  sim m P s v (hum_msg sc unsafe grow uunm uext n m p v s) (unit_of (um_msg sc n m d b)).
Proof.
  induction n as [|n IH]; intros P m p d s a b v Lm L B S T Rab K O; [lia|]. cbn [hum_msg um_msg].
  apply (body_sim (length d)) with (a := a); auto.
  - intros m' buf v' Lb Bb Sb Tb. apply um_msg_ok; auto; lia.
  - intros P' m' p' q s' a' b' v' Lm' Lq Bq Sq Tq R' K' O'. apply IH with (a := a'); auto. lia.
Qed.
Theorem UnmarshalVT_sim P m p d s a b v : loc m -> bytes_ok d = true -> small d -> target sc m b -> R m a b -> ok P s p d -> own (heap s) P a v ->
  sim m P s v (hUnmarshal sc unsafe grow uunm uext m p v s) (unit_of (UnmarshalVT sc m d b)).
Proof.
  intros Lm B S T Rab K O. unfold hUnmarshal, UnmarshalVT. rewrite (len_ok _ _ _ _ K). apply hum_sim with (a := a); auto.
Qed.
End Sim.
End Ops.
