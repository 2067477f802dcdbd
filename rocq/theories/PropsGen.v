(** Properties C42, C43, C44 and C51: the generator's options, the RPC codecs and the
    gRPC stubs. *)
From Coq Require Import ZArith List Bool Lia Permutation Sorted.
From Verif Require Import TargetFacts UmFacts Base BaseFacts Schema Value Helpers Size Marshal Unmarshal Equal Pattern PatternSpec PatternFacts PatternValid Generator Typing
  WireSpec RecordSpec MsgSpec DecodeSpec ContentSpec EqualSpec SimFacts MarshalFacts MarshalTop Ex PropsPattern PropsUnmarshal PropsRoundTrip PropsEqual.
Import ListNotations.
Open Scope Z_scope.

(** * Strings *)
Inductive str_lt : str -> str -> Prop :=
| lt_nil b y : str_lt [] (y :: b)
| lt_head x y a b : x < y -> str_lt (x :: a) (y :: b)
| lt_tail x a b : str_lt a b -> str_lt (x :: a) (x :: b).
Lemma str_eqb_ok a b : str_eqb a b = true <-> a = b.
Proof. unfold str_eqb. destruct (list_eq_dec Z.eq_dec a b); split; auto; discriminate. Qed.
Lemma str_eqb_refl a : str_eqb a a = true.
Proof. now apply str_eqb_ok. Qed.
Lemma str_ltb_ok a : forall b, str_ltb a b = true <-> str_lt a b.
Proof.
  induction a as [|x a IH]; intros [|y b]; cbn [str_ltb].
  - split; [discriminate|intros H; inversion H].
  - split; auto. constructor.
  - split; [discriminate|intros H; inversion H].
  - destruct (Z.ltb_spec x y); [split; auto; now constructor|]. destruct (Z.ltb_spec y x).
    + split; [discriminate|]. intros K. inversion K; subst; lia.
    + assert (x = y) as -> by lia. rewrite IH. split; [now constructor|]. intros K. inversion K; subst; auto; lia.
Qed.
Lemma str_lt_trans a b c : str_lt a b -> str_lt b c -> str_lt a c.
Proof.
  intros H. revert c. induction H as [b y|x y a b L|x a b H IH]; intros c K; inversion K; subst; try (apply lt_nil); try (apply lt_head; lia).
  apply lt_tail. now apply IH.
Qed.
Lemma str_lt_total a b : a <> b -> str_ltb a b = false -> str_lt b a.
Proof.
  revert b. induction a as [|x a IH]; intros [|y b] N H; cbn [str_ltb] in H; try congruence; try apply lt_nil.
  destruct (Z.ltb_spec x y); [discriminate|]. destruct (Z.ltb_spec y x); [now apply lt_head|]. assert (x = y) as -> by lia. apply lt_tail. apply IH; auto. congruence.
Qed.
Lemma str_lt_irr a : ~ str_lt a a.
Proof. induction a as [|x a IH]; intros H; inversion H; subst; auto; lia. Qed.

(** * Maps and sorting *)
Definition keys {A} (l : list (str * A)) : list str := map fst l.
Lemma map_get_in {A} (l : list (str * A)) k a : map_get l k = Some a -> In (k, a) l.
Proof.
  induction l as [|[k' a'] l IH]; cbn [map_get]; [discriminate|]. destruct (str_eqb k' k) eqn:E; [|intros H; right; auto]. apply str_eqb_ok in E. subst. intros H. injection H as ->. now left.
Qed.
Lemma map_get_some {A} (l : list (str * A)) k a : NoDup (keys l) -> In (k, a) l -> map_get l k = Some a.
Proof.
  induction l as [|[k' a'] l IH]; cbn [map_get keys map fst In]; intros N H; [destruct H|]. inversion N as [|? ? N1 N2]; subst. destruct H as [H|H].
  - injection H as -> ->. now rewrite str_eqb_refl.
  - destruct (str_eqb k' k) eqn:E; [|auto]. apply str_eqb_ok in E. subst. exfalso. apply N1. now apply (in_map fst) in H.
Qed.
Lemma map_get_none {A} (l : list (str * A)) k : map_get l k = None <-> ~ In k (keys l).
Proof.
  induction l as [|[k' a'] l IH]; cbn [map_get keys map fst In]; [intuition|]. destruct (str_eqb k' k) eqn:E.
  - apply str_eqb_ok in E. subst. split; [discriminate|]. intros H. exfalso. auto.
  - rewrite IH. assert (k' <> k) by (intros ->; rewrite str_eqb_refl in E; discriminate). unfold keys. intuition.
Qed.
Lemma map_set_keys {A} (l : list (str * A)) k a x : In x (keys (map_set l k a)) <-> x = k \/ In x (keys l).
Proof.
  induction l as [|[k' a'] l IH]; cbn [map_set keys map fst In]; [intuition|]. destruct (str_eqb k' k) eqn:E; cbn [map fst In].
  - apply str_eqb_ok in E. subst. intuition.
  - unfold keys in IH. rewrite IH. tauto.
Qed.
Lemma map_set_nodup {A} (l : list (str * A)) k a : NoDup (keys l) -> NoDup (keys (map_set l k a)).
Proof.
  induction l as [|[k' a'] l IH]; cbn [map_set keys map fst]; intros N; [now repeat constructor|]. inversion N as [|? ? N1 N2]; subst. destruct (str_eqb k' k) eqn:E; cbn [map fst].
  - apply str_eqb_ok in E. subst. now constructor.
  - constructor; [|now apply IH]. intros H. apply map_set_keys in H. destruct H as [->|H]; [rewrite str_eqb_refl in E; discriminate|contradiction].
Qed.
Lemma map_set_in {A} (l : list (str * A)) k a x b : In (x, b) (map_set l k a) -> (x = k /\ b = a) \/ In (x, b) l.
Proof.
  induction l as [|[k' a'] l IH]; cbn [map_set In].
  - intros [H|[]]. injection H as <- <-. auto.
  - destruct (str_eqb k' k); cbn [In]; intros [H|H]; auto; [injection H as <- <-; auto|]. apply IH in H. tauto.
Qed.
Definition by_name {A} (x y : str * A) : Prop := str_lt (fst x) (fst y).
Lemma insert_perm {A} (x : str * A) l : Permutation (insert x l) (x :: l).
Proof. induction l as [|y l IH]; cbn [insert]; auto. destruct (str_ltb (fst x) (fst y)); auto. rewrite IH. apply perm_swap. Qed.
Lemma sort_perm {A} (l : list (str * A)) : Permutation (sort_names l) l.
Proof. induction l as [|x l IH]; cbn [sort_names]; auto. rewrite insert_perm. now constructor. Qed.
Lemma insert_sorted {A} (x : str * A) l : StronglySorted by_name l -> ~ In (fst x) (keys l) -> StronglySorted by_name (insert x l).
Proof.
  induction 1 as [|y l S IH F]; intros N; cbn [insert]; [repeat constructor|]. destruct (str_ltb (fst x) (fst y)) eqn:E.
  - apply str_ltb_ok in E. constructor; [now constructor|]. constructor; auto. eapply Forall_impl; [|exact F]. intros z Z. eapply str_lt_trans; eauto.
  - cbn [keys map In] in N. constructor; [apply IH; tauto|]. apply (Permutation_Forall (Permutation_sym (insert_perm x l))). constructor; auto. apply str_lt_total; auto.
Qed.
Lemma sort_sorted {A} (l : list (str * A)) : NoDup (keys l) -> StronglySorted by_name (sort_names l).
Proof.
  induction l as [|x l IH]; cbn [sort_names keys map]; intros N; [constructor|]. inversion N as [|? ? N1 N2]; subst. apply insert_sorted; [now apply IH|].
  intros H. apply N1. unfold keys in *. eapply Permutation_in; [|exact H]. apply Permutation_map. apply sort_perm.
Qed.
Lemma sorted_unique {A} (l l' : list (str * A)) : StronglySorted by_name l -> StronglySorted by_name l' -> (forall x, In x l <-> In x l') -> l = l'.
Proof.
  intros S. revert l'. induction S as [|x l S IH F]; intros l' S' E.
  - destruct l' as [|y l']; auto. destruct (proj2 (E y) (or_introl eq_refl)).
  - destruct S' as [|y l' S' F']; [destruct (proj1 (E x) (or_introl eq_refl))|]. rewrite Forall_forall in F, F'.
    assert (x = y) as ->.
    { destruct (proj1 (E x) (or_introl eq_refl)) as [H|H]; auto. destruct (proj2 (E y) (or_introl eq_refl)) as [H'|H']; auto. apply F' in H. apply F in H'. exfalso. eapply str_lt_irr. eapply str_lt_trans; eauto. }
    f_equal. apply IH; auto. intros z. split; intros Hz.
    + destruct (proj1 (E z) (or_intror Hz)) as [<-|H]; auto. exfalso. apply F in Hz. now apply str_lt_irr in Hz.
    + destruct (proj2 (E z) (or_intror Hz)) as [<-|H]; auto. exfalso. apply F' in Hz. now apply str_lt_irr in Hz.
Qed.

(** * C42 *)
(** The features a request selects: those it names before the word "all", or every
    registered one if it contains that word. *)
Fixpoint before_all (names : list str) : list str * bool :=
  match names with [] => ([], false) | n :: names' => if str_eqb n all_name then ([], true) else (n :: fst (before_all names'), snd (before_all names')) end.
Definition wanted {F} (registered : list (str * F)) (names : list str) (n : str) : Prop := if snd (before_all names) then In n (keys registered) else In n names.
Lemma before_all_false names : snd (before_all names) = false -> fst (before_all names) = names.
Proof. induction names as [|n names IH]; cbn [before_all]; auto. destruct (str_eqb n all_name); cbn [fst snd]; [discriminate|]. intros H. f_equal. auto. Qed.
Lemma require_ok {F} (reg : list (str * F)) : NoDup (keys reg) -> forall names req, NoDup (keys req) -> (forall x, In x req -> In x reg) ->
  match require reg req names with
  | inr n => In n (fst (before_all names)) /\ ~ In n (keys reg)
  | inl r => NoDup (keys r) /\ (forall x, In x r -> In x reg) /\ (forall n, In n (fst (before_all names)) -> In n (keys reg)) /\
             forall n, In n (keys r) <-> if snd (before_all names) then In n (keys reg) else In n (keys req) \/ In n names
  end.
Proof.
  intros NR. induction names as [|n names IH]; intros req N S; cbn [require before_all].
  - split; auto. split; auto. split; [intros ? []|]. cbn. tauto.
  - destruct (str_eqb n all_name) eqn:A; cbn [fst snd]. { split; auto. split; auto. split; [intros ? []|]. tauto. }
    destruct (map_get reg n) as [f|] eqn:G.
    + specialize (IH (map_set req n f) (map_set_nodup _ _ _ N)). apply map_get_in in G.
      assert (forall x, In x (map_set req n f) -> In x reg) as S' by (intros [k b] Hx; apply map_set_in in Hx; destruct Hx as [[-> ->]|Hx]; auto). specialize (IH S').
      destruct (require reg (map_set req n f) names) as [r|e]; [|destruct IH; split; auto; now right].
      destruct IH as (I1 & I2 & I3 & I4). split; auto. split; auto. split; [intros x [<-|Hx]; auto; now apply (in_map fst) in G|].
      intros x. rewrite I4. destruct (snd (before_all names)); [tauto|]. rewrite map_set_keys. cbn [In]. intuition.
    + apply map_get_none in G. split; auto. now left.
Qed.
Lemma NoDup_keys_perm {A} (l l' : list (str * A)) : Permutation l l' -> NoDup (keys l) -> NoDup (keys l').
Proof. intros P. apply Permutation_NoDup. now apply Permutation_map. Qed.
Lemma in_keys {A} (l : list (str * A)) k : In k (keys l) -> exists a, In (k, a) l.
Proof. unfold keys. rewrite in_map_iff. intros ([k' a] & <- & H). eauto. Qed.
Lemma keys_inj {A} (l : list (str * A)) k a b : NoDup (keys l) -> In (k, a) l -> In (k, b) l -> a = b.
Proof. intros N H1 H2. apply map_get_some in H1, H2; auto. congruence. Qed.

(** C42: the selected features, each once, in the order of their names. *)
Theorem C42_selected : forall F iter (registered : list (str * F)) names fs,
  (forall l, Permutation (iter l) l) -> NoDup (keys registered) -> findFeatures iter registered names = inl fs ->
  exists ns, StronglySorted str_lt ns /\ (forall n, In n ns <-> wanted registered names n) /\ map (fun n => map_get registered n) ns = map Some fs.
Proof.
  intros F iter reg names fs IT N H. unfold findFeatures in H. pose proof (require_ok reg N names [] ltac:(constructor) ltac:(intros ? [])) as R.
  destruct (require reg [] names) as [r|e]; [|discriminate]. injection H as <-. destruct R as (R1 & R2 & R3 & R4).
  assert (NoDup (keys (iter r))) as NI by (eapply NoDup_keys_perm; [apply Permutation_sym; apply IT|exact R1]).
  pose proof (sort_sorted (iter r) NI) as SS. exists (keys (sort_names (iter r))). split; [|split].
  - clear -SS. unfold keys. induction SS as [|x l S IH FF]; cbn [map]; constructor; auto. rewrite Forall_map. exact FF.
  - intros n. unfold wanted. specialize (R4 n). cbn [keys map In] in R4.
    assert (In n (keys (sort_names (iter r))) <-> In n (keys r)) as ->. { unfold keys. split; apply Permutation_in; [|apply Permutation_sym]; apply Permutation_map; rewrite sort_perm; apply IT. }
    rewrite R4. destruct (snd (before_all names)); tauto.
  - assert (forall x, In x (sort_names (iter r)) -> In x reg) as S. { intros x Hx. apply R2. eapply Permutation_in; [|exact Hx]. rewrite sort_perm. apply IT. }
    clear -S N. induction (sort_names (iter r)) as [|[k f] l IH]; cbn [keys map fst snd]; auto. f_equal; [apply map_get_some; auto; apply S; now left|]. apply IH. intros x Hx. apply S. now right.
Qed.
Print Assumptions C42_selected.

(** C42: the request fails exactly if a name before "all" is not registered. *)
Theorem C42_unknown : forall F iter (registered : list (str * F)) names, NoDup (keys registered) ->
  (exists n, findFeatures iter registered names = inr n) <-> exists n, In n (fst (before_all names)) /\ ~ In n (keys registered).
Proof.
  intros F iter reg names N. unfold findFeatures. pose proof (require_ok reg N names [] ltac:(constructor) ltac:(intros ? [])) as R. destruct (require reg [] names) as [r|e].
  - split; [intros [n H]; discriminate|]. intros (n & H1 & H2). exfalso. apply H2. now apply R.
  - split; [intros _; eauto|]. eauto.
Qed.
Print Assumptions C42_unknown.

(** C42: order and repetition do not matter, nor does the order in which Go visits maps. *)
Theorem C42_order : forall F iter iter' (registered : list (str * F)) names names' fs fs',
  (forall l, Permutation (iter l) l) -> (forall l, Permutation (iter' l) l) -> NoDup (keys registered) ->
  (forall n, In n names <-> In n names') -> findFeatures iter registered names = inl fs -> findFeatures iter' registered names' = inl fs' -> fs = fs'.
Proof.
  intros F iter iter' reg names names' fs fs' IT IT' N E H H'.
  destruct (C42_selected _ _ _ _ _ IT N H) as (ns & S & W & M). destruct (C42_selected _ _ _ _ _ IT' N H') as (ns' & S' & W' & M').
  assert (forall l, snd (before_all l) = true <-> In all_name l) as BA.
  { intros l. induction l as [|x l IH]; cbn [before_all In snd]; [split; [discriminate|intros []]|]. destruct (str_eqb x all_name) eqn:X; cbn [snd].
    - apply str_eqb_ok in X. subst. tauto.
    - rewrite IH. split; auto. intros [->|]; auto. now rewrite str_eqb_refl in X. }
  assert (ns = ns') as ->.
  { assert (map (fun n => (n, tt)) ns = map (fun n => (n, tt)) ns') as EQ.
    { apply sorted_unique.
      - clear -S. induction S as [|x l S IH FF]; cbn [map]; constructor; auto. rewrite Forall_map. exact FF.
      - clear -S'. induction S' as [|x l S IH FF]; cbn [map]; constructor; auto. rewrite Forall_map. exact FF.
      - intros [x []]. rewrite !in_map_iff. assert (In x ns <-> In x ns') as X.
        { rewrite W, W'. unfold wanted. destruct (snd (before_all names)) eqn:B, (snd (before_all names')) eqn:B'; auto; try tauto.
          - apply BA, E, BA in B. congruence.
          - apply BA, E, BA in B'. congruence. }
        split; intros (y & Ey & Hy); injection Ey as ->; exists x; split; auto; now apply X. }
    apply (f_equal (map fst)) in EQ. rewrite !map_map in EQ. cbn [fst] in EQ. now rewrite !map_id in EQ. }
  rewrite M in M'. clear -M'. revert fs' M'. induction fs as [|f fs IH]; intros [|f' fs'] M; try discriminate; auto. injection M as -> M. f_equal. auto.
Qed.
Print Assumptions C42_order.
(** A registry with clone, equal and size; requests  size+clone+size  and  clone+size. *)
Definition c42_reg : list (str * nat) := [([115; 105; 122; 101], 1%nat); ([99; 108; 111; 110; 101], 2%nat); ([101; 113; 117; 97; 108], 3%nat)].
Example C42_ex : NoDup (keys c42_reg) /\ findFeatures (fun l => rev l) c42_reg [[115; 105; 122; 101]; [99; 108; 111; 110; 101]; [115; 105; 122; 101]] = inl [2%nat; 1%nat] /\
  findFeatures (fun l => l) c42_reg [all_name; [120]] = inl [2%nat; 3%nat; 1%nat] /\ findFeatures (fun l => l) c42_reg [[120]; all_name] = inr [120].
Proof.
  split; [cbn; repeat constructor; cbn; intuition discriminate|]. split; [reflexivity|]. split; reflexivity.
Qed.

(** * C43 *)
(** The import path and the Go name of a message, joined by a dot. *)
Definition full_name (g : goident) : str := go_path g ++ [46] ++ go_name g.
Definition listed (o : list (str * bool)) (g : goident) : Prop := exists w, In w (keys o) /\ Match w (full_name g) = PYes.
Lemma contains_ok iter o g : (forall l, Permutation (iter l) l) -> Contains iter o g = true <-> listed o g.
Proof.
  intros IT. unfold Contains, listed. replace (objectPath g) with (full_name g) by reflexivity. rewrite existsb_exists. split.
  - intros ([w b] & H & M). exists w. split; [apply (in_map fst _ (w, b)); eapply Permutation_in; [apply IT|exact H]|]. cbn [fst] in M. destruct (Match w (full_name g)); auto; discriminate.
  - intros (w & H & M). apply in_keys in H. destruct H as [b H]. exists (w, b). split; [eapply Permutation_in; [apply Permutation_sym; apply IT|exact H]|]. cbn [fst]. now rewrite M.
Qed.
(** C43: exclusion wins over inclusion, inclusion over the option in the schema. *)
Theorem C43_precedence : forall iter c m, (forall l, Permutation (iter l) l) ->
  ShouldPool iter c (Some m) = true <-> ~ listed (PoolableExclude c) (msg_ident m) /\ (listed (Poolable c) (msg_ident m) \/ msg_mempool m = Some true).
Proof.
  intros iter c m IT. unfold ShouldPool. pose proof (contains_ok iter (PoolableExclude c) (msg_ident m) IT) as E1. pose proof (contains_ok iter (Poolable c) (msg_ident m) IT) as E2.
  destruct (Contains iter (PoolableExclude c) (msg_ident m)). { split; [discriminate|]. intros [H _]. exfalso. apply H. now apply E1. }
  assert (~ listed (PoolableExclude c) (msg_ident m)) as N by (intros H; apply E1 in H; discriminate).
  destruct (Contains iter (Poolable c) (msg_ident m)). { split; auto. intros _. split; auto. left. now apply E2. }
  destruct (msg_mempool m) as [[|]|].
  - split; auto.
  - split; [discriminate|]. intros [_ [H|H]]; [apply E2 in H; discriminate|discriminate].
  - split; [discriminate|]. intros [_ [H|H]]; [apply E2 in H; discriminate|discriminate].
Qed.
Print Assumptions C43_precedence.
Theorem C43_nil : forall iter c, ShouldPool iter c None = false.
Proof. reflexivity. Qed.
Print Assumptions C43_nil.
(** C43: the same for unknown fields. *)
Theorem C43_ignore_unknown : forall iter c m, (forall l, Permutation (iter l) l) ->
  ShouldIgnoreUnknownFields iter c m = true <-> listed (IgnoreUnknownFields c) (msg_ident m) \/ msg_ignore m = Some true.
Proof.
  intros iter c m IT. unfold ShouldIgnoreUnknownFields. pose proof (contains_ok iter (IgnoreUnknownFields c) (msg_ident m) IT) as E.
  destruct (Contains iter (IgnoreUnknownFields c) (msg_ident m)). { split; auto. intros _. left. now apply E. }
  destruct (msg_ignore m) as [[|]|].
  - split; auto.
  - split; [discriminate|]. intros [H|H]; [apply E in H; discriminate|discriminate].
  - split; [discriminate|]. intros [H|H]; [apply E in H; discriminate|discriminate].
Qed.
Print Assumptions C43_ignore_unknown.
(** Flags: a sequence of Set calls succeeds if all patterns are valid, and then holds
    exactly those. *)
Lemma set_all_ok ss : forall o, match Set_all o ss with
  | Some o' => (forall s, In s ss -> ValidatePattern s = true) /\ forall s, In s (keys o') <-> In s (keys o) \/ In s ss
  | None => exists s, In s ss /\ ValidatePattern s = false end.
Proof.
  induction ss as [|s ss IH]; intros o; cbn [Set_all].
  - split; [intros ? []|]. cbn. tauto.
  - unfold Set_pattern. destruct (ValidatePattern s) eqn:V; [|exists s; split; auto; now left]. specialize (IH (map_set o s true)). destruct (Set_all (map_set o s true) ss) as [o'|].
    + destruct IH as [I1 I2]. split; [intros x [<-|Hx]; auto|]. intros x. rewrite I2, map_set_keys. cbn [In]. intuition.
    + destruct IH as (x & Hx & Vx). exists x. split; auto. now right.
Qed.
(** A fully qualified name without metacharacters, and in valid UTF-8. *)
Definition literal (s : str) : Prop := (forall c, In c s -> ~ In c [42; 63; 91; 92; 123; 125]) /\ ~ In RuneError (runes s).
(** C43: if all pool options are plain names, a message is pooled exactly if its name is
    given as pool or its option says so, and it is not given as pool-exclude; the order
    and number of the flags do not matter. *)
Theorem C43_literal : forall iter pool exclude p x m, (forall l, Permutation (iter l) l) ->
  Set_all [] pool = Some p -> Set_all [] exclude = Some x -> Forall literal pool -> Forall literal exclude ->
  ShouldPool iter (mkConfig p x []) (Some m) = true <->
  ~ In (full_name (msg_ident m)) exclude /\ (In (full_name (msg_ident m)) pool \/ msg_mempool m = Some true).
Proof.
  intros iter pool exclude p x m IT SP SX LP LX. rewrite C43_precedence by auto. cbn [Poolable PoolableExclude].
  assert (forall ss o, Set_all [] ss = Some o -> Forall literal ss -> listed o (msg_ident m) <-> In (full_name (msg_ident m)) ss) as EQ.
  { intros ss o S L. pose proof (set_all_ok ss []) as SA. rewrite S in SA. destruct SA as [_ SA]. cbn [keys map In] in SA. rewrite Forall_forall in L. unfold listed. split.
    - intros (w & Hw & M). apply SA in Hw. destruct Hw as [[]|Hw]. destruct (L w Hw) as [L1 L2]. apply (C40_self w _ L1 L2) in M. now rewrite M.
    - intros H. exists (full_name (msg_ident m)). split; [apply SA; now right|]. destruct (L _ H) as [L1 L2]. now apply (C40_self _ _ L1 L2). }
  rewrite (EQ _ _ SX LX), (EQ _ _ SP LP). reflexivity.
Qed.
Print Assumptions C43_literal.
Theorem C43_flags : forall ss ss', (forall s, In s ss <-> In s ss') ->
  (Set_all [] ss = None <-> Set_all [] ss' = None) /\
  forall o o' g, Set_all [] ss = Some o -> Set_all [] ss' = Some o' -> listed o g <-> listed o' g.
Proof.
  intros ss ss' E. pose proof (set_all_ok ss []) as A. pose proof (set_all_ok ss' []) as B. split.
  - destruct (Set_all [] ss) as [o|], (Set_all [] ss') as [o'|]; split; auto; try discriminate.
    + destruct B as (s & Hs & V). destruct A as [A _]. apply E in Hs. apply A in Hs. congruence.
    + destruct A as (s & Hs & V). destruct B as [B _]. apply E in Hs. apply B in Hs. congruence.
  - intros o o' g Eo Eo'. rewrite Eo in A. rewrite Eo' in B. destruct A as [_ A], B as [_ B]. unfold listed. split; intros (w & Hw & M); exists w; split; auto; [apply B; apply A in Hw|apply A; apply B in Hw]; rewrite <- ?E in *; rewrite ?E in *; tauto.
Qed.
Print Assumptions C43_flags.
(** pool=p.A, pool=p.B, pool-exclude=p.B *)
Example C43_ex : exists p x, Set_all [] [[112; 46; 65]; [112; 46; 66]] = Some p /\ Set_all [] [[112; 46; 66]] = Some x /\ Forall literal [[112; 46; 65]; [112; 46; 66]] /\
  map (fun n => ShouldPool (fun l => l) (mkConfig p x []) (Some (mkMsg (mkId [n] [112]) None None))) [65; 66; 67] = [true; false; false].
Proof.
  eexists. eexists. split; [vm_compute; reflexivity|]. split; [vm_compute; reflexivity|]. split.
  - apply Forall_cons; [split; [intros c Hc; cbn [In] in *; intuition lia|vm_compute; intuition discriminate]|]. apply Forall_cons; [split; [intros c Hc; cbn [In] in *; intuition lia|vm_compute; intuition discriminate]|]. constructor.
  - vm_compute. reflexivity.
Qed.

(** * C44 *)
(** C44: for a value with helpers the codec does what they do. *)
Theorem C44_delegates : forall sc m v data,
  grpc_Marshal sc (Helped m v) = MarshalVT sc false m v /\ drpc_Marshal sc (Helped m v) = MarshalVT sc false m v /\
  (forall v', grpc_Unmarshal sc data (Helped m v) = Ok (Helped m v') <-> UnmarshalVT sc m data v = Ok v') /\
  (forall e v', grpc_Unmarshal sc data (Helped m v) = Err e (Helped m v') <-> UnmarshalVT sc m data v = Err e v') /\
  drpc_Unmarshal sc data (Helped m v) = grpc_Unmarshal sc data (Helped m v).
Proof.
  intros sc m v data. split; [reflexivity|]. split; [reflexivity|]. cbn [grpc_Unmarshal drpc_Unmarshal]. destruct (UnmarshalVT sc m data v) as [a|e a| |].
  - split; [intros v'; split; intros H; injection H as <-; reflexivity|]. split; [intros e v'; split; discriminate|reflexivity].
  - split; [intros v'; split; discriminate|]. split; [intros e' v'; split; intros H; injection H as <- <-; reflexivity|reflexivity].
  - split; [intros v'; split; discriminate|]. split; [intros e' v'; split; discriminate|reflexivity].
  - split; [intros v'; split; discriminate|]. split; [intros e' v'; split; discriminate|reflexivity].
Qed.
Print Assumptions C44_delegates.
(** C44: no value and no input makes the gRPC codec's Unmarshal panic (values with
    helpers: those for which UnmarshalVT is total, C19). *)
Theorem C44_no_panic : forall sc d data, wf_schema sc = true -> up_dec_ok sc -> bytes_ok data = true -> small data ->
  (forall m v, d = Helped m v -> target sc m v) ->
  (exists d', grpc_Unmarshal sc data d = Ok d') \/ exists e d', grpc_Unmarshal sc data d = Err e d'.
Proof.
  intros sc [m v|t] data W U B S T; cbn [grpc_Unmarshal]; [|right; eauto].
  destruct (C19_total sc m data v W U B S (T m v eq_refl)) as [(v' & A & _)|(e & v' & A & _)]; [unfold accepts in A|]; rewrite A; eauto.
Qed.
Print Assumptions C44_no_panic.
Theorem C44_missing_helpers : forall sc t data, grpc_Marshal sc (Other t) = Err ENotMessage tt /\ grpc_Unmarshal sc data (Other t) = Err ENotMessage (Other t).
Proof. split; reflexivity. Qed.
Print Assumptions C44_missing_helpers.
(** C44: what one side marshals the other side unmarshals to an equal message. *)
Theorem C44_round_trip : forall sc o m v bs,
  wf_schema sc = true -> up_enc_ok sc -> up_dec_ok sc -> up_eq_ok sc -> md_foreign (md_of sc m) = false ->
  wt_msg sc m v -> nan_free sc m v -> decodable sc (fun m x y => up_eq (sc_up sc) m x y = true) m v ->
  grpc_Marshal sc (Helped m v) = Ok (Some bs) -> small bs ->
  exists v', grpc_Unmarshal sc bs (Helped m (new_msg (md_of sc m))) = Ok (Helped m v') /\ EqualVT sc o m v v' = true.
Proof.
  intros sc o m v bs W UE UD UQ F T N D M S. cbn [grpc_Marshal] in M. destruct (C18_equal sc o false m v bs W UE UD UQ F T N D M S) as (v' & A & E).
  exists v'. split; auto. unfold accepts in A. cbn [grpc_Unmarshal]. now rewrite A.
Qed.
Print Assumptions C44_round_trip.
Example C44_ex : exists bs, up_eq_ok ex_sc /\ wt_msg ex_sc 0 ex_v /\ nan_free ex_sc 0 ex_v /\ decodable ex_sc (fun m x y => up_eq (sc_up ex_sc) m x y = true) 0 ex_v /\
  grpc_Marshal ex_sc (Helped 0 ex_v) = Ok (Some bs) /\ small bs /\ (10 < length bs)%nat.
Proof.
  eexists. split; [apply ex_eq_ok|]. split; [apply ex_wt|]. split; [apply ex_free|]. split; [apply ex_dec_eq, ex_decodable|]. split; [vm_compute; reflexivity|]. split; [vm_compute; reflexivity|]. cbn [length]. lia.
Qed.
(** The dRPC functions panic on a value without helpers. *)
Theorem C44_drpc_refuted : exists d, forall sc data, drpc_Marshal sc d = Panic /\ drpc_Unmarshal sc data d = Panic.
Proof. exists (Other []). intros. split; reflexivity. Qed.
Print Assumptions C44_drpc_refuted.

(** * C51 *)
Lemma client_index_stream names ms : forall k m mi si j, nth_error ms k = Some m -> streaming m = true ->
  exists idx, nth_error (client_indices ms mi si) k = Some idx /\ (si <= idx)%nat /\
    nth_error (desc_streams names j ms) (idx - si) = Some (mkSdesc (me_name m) (nth (j + k) names []) (me_server m) (me_client m)).
Proof.
  induction ms as [|x ms IH]; intros [|k] m mi si j H T; cbn [nth_error] in H; try discriminate.
  - injection H as ->. unfold streaming in T. cbn [client_indices desc_streams]. destruct (me_client m) eqn:C, (me_server m) eqn:S; try discriminate; cbn [negb andb nth_error]; exists si; split; auto; split; auto; rewrite Nat.sub_diag, Nat.add_0_r; reflexivity.
  - cbn [client_indices desc_streams]. rewrite (andb_comm (negb (me_client x))). destruct (negb (me_server x) && negb (me_client x)); cbn [nth_error].
    + destruct (IH k m (Datatypes.S mi) si (Datatypes.S j) H T) as (idx & A & B & C). exists idx. split; auto. split; auto. rewrite C. do 3 f_equal. lia.
    + destruct (IH k m mi (Datatypes.S si) (Datatypes.S j) H T) as (idx & A & B & C). exists idx. split; auto. split; [lia|]. replace (idx - si)%nat with (Datatypes.S (idx - Datatypes.S si)) by lia. cbn [nth_error]. rewrite C. do 3 f_equal. lia.
Qed.
Lemma client_index_some ms : forall k m mi si, nth_error ms k = Some m -> exists idx, nth_error (client_indices ms mi si) k = Some idx.
Proof. induction ms as [|x ms IH]; intros [|k] m mi si H; cbn [nth_error] in H; try discriminate; cbn [client_indices]; destruct (negb (me_server x) && negb (me_client x)); cbn [nth_error]; eauto. Qed.
Lemma methods_get names ms : NoDup (map me_name ms) -> forall k m j, nth_error ms k = Some m ->
  map_get (desc_methods names j ms) (me_name m) = if streaming m then None else Some (nth (j + k) names []).
Proof.
  induction ms as [|x ms IH]; intros N [|k] m j H; cbn [nth_error] in H; try discriminate; cbn [map] in N; inversion N as [|? ? N1 N2]; subst; cbn [desc_methods].
  - injection H as ->. destruct (streaming m) eqn:T.
    + apply map_get_none. intros I. apply N1. clear -I. revert j I. induction ms as [|y ms IH]; intros j I; cbn [desc_methods] in I; [destruct I|]. cbn [map]. destruct (streaming y); [right; eauto|]. destruct I as [I|I]; [left; auto|right; eauto].
    + cbn [map_get]. rewrite str_eqb_refl, Nat.add_0_r. reflexivity.
  - assert (me_name x <> me_name m) as X. { intros E. apply N1. rewrite E. apply in_map. eapply nth_error_In; eauto. }
    specialize (IH N2 k m (Datatypes.S j) H). replace (j + Datatypes.S k)%nat with (Datatypes.S j + k)%nat by lia. destruct (streaming x); auto. cbn [map_get]. destruct (str_eqb (me_name x) (me_name m)) eqn:E; auto. apply str_eqb_ok in E. contradiction.
Qed.
Lemma streams_get names ms : NoDup (map me_name ms) -> forall k m j, nth_error ms k = Some m -> streaming m = true ->
  find_stream (desc_streams names j ms) (me_name m) = Some (nth (j + k) names []).
Proof.
  induction ms as [|x ms IH]; intros N [|k] m j H T; cbn [nth_error] in H; try discriminate; cbn [map] in N; inversion N as [|? ? N1 N2]; subst; cbn [desc_streams].
  - injection H as ->. unfold streaming in T. destruct (me_client m), (me_server m); try discriminate; cbn [negb andb find_stream sd_name sd_handler]; rewrite str_eqb_refl, Nat.add_0_r; reflexivity.
  - assert (me_name x <> me_name m) as X. { intros E. apply N1. rewrite E. apply in_map. eapply nth_error_In; eauto. }
    specialize (IH N2 k m (Datatypes.S j) H T). replace (j + Datatypes.S k)%nat with (Datatypes.S j + k)%nat by lia. destruct (negb (me_client x) && negb (me_server x)); auto. cbn [find_stream sd_name sd_handler]. destruct (str_eqb (me_name x) (me_name m)) eqn:E; auto. apply str_eqb_ok in E. contradiction.
Qed.
Lemma last_slash_none s : forall cur best, ~ In 47 s -> last_slash s cur best = best.
Proof. induction s as [|c s IH]; intros cur best H; cbn [last_slash]; auto. cbn [In] in H. destruct (Z.eqb_spec c 47); [exfalso; auto|]. apply IH. tauto. Qed.
Lemma last_slash_app a b : ~ In 47 b -> forall cur best, last_slash (a ++ [47] ++ b) cur best = Some (cur ++ a, b).
Proof.
  intros N. induction a as [|c a IH]; intros cur best.
  - cbn [app last_slash]. rewrite Z.eqb_refl. rewrite last_slash_none by auto. now rewrite app_nil_r.
  - cbn [app last_slash] in *. rewrite IH. now rewrite <- app_assoc.
Qed.
Lemma handlers_get s k m : NoDup (map me_goname (sv_methods s)) -> nth_error (sv_methods s) k = Some m -> map_get (handlers s) (nth k (handlerNames s) []) = Some (me_goname m).
Proof.
  intros N H. unfold handlers, handlerNames. assert (nth k (map (hname s) (sv_methods s)) [] = hname s m) as ->.
  { erewrite nth_indep with (d' := hname s m); [|rewrite map_length; apply nth_error_Some; congruence]. rewrite map_nth. f_equal. now apply nth_error_nth. }
  apply map_get_some.
  - unfold keys. rewrite map_map. cbn [fst]. revert N. generalize (sv_methods s). induction l as [|x l IH]; cbn [map]; intros N; constructor; inversion N as [|? ? N1 N2]; subst; auto.
    intros I. apply N1. apply in_map_iff in I. destruct I as (y & E & I). unfold hname in E. repeat (apply app_inv_head in E). apply app_inv_tail in E. apply in_map_iff. eauto.
  - apply in_map_iff. exists m. split; auto. eapply nth_error_In; eauto.
Qed.
Definition path_of (c : ccall) : str := match c with Invoke p => p | NewStream _ p => p end.
(** C51: every stub's call is served by its own method, through a stream exactly if the
    method streams, and then with the method's own stream description. *)
Theorem C51_stubs : forall s k m, NoDup (map me_name (sv_methods s)) -> NoDup (map me_goname (sv_methods s)) -> (forall m, In m (sv_methods s) -> ~ In 47 (me_name m)) ->
  nth_error (sv_methods s) k = Some m ->
  exists c, client_call s k = Some c /\ serve s (path_of c) = Some (me_goname m) /\
    if me_client m || me_server m
    then exists d, c = NewStream d (path_of c) /\ In d (Streams s) /\ sd_name d = me_name m /\ sd_client d = me_client m /\ sd_server d = me_server m
    else c = Invoke (path_of c).
Proof.
  intros s k m N1 N2 NS H.
  assert (serve s (sname s m) = Some (me_goname m)) as SV.
  { unfold sname. cbn [app serve]. rewrite Z.eqb_refl. cbn [negb]. change (sv_full s ++ 47 :: me_name m) with (sv_full s ++ [47] ++ me_name m).
    rewrite last_slash_app by (apply NS; eapply nth_error_In; eauto). cbn [app]. rewrite str_eqb_refl. unfold Methods, Streams. rewrite (methods_get _ _ N1 k m 0 H).
    destruct (streaming m) eqn:T; [rewrite (streams_get _ _ N1 k m 0 H T)|]; cbn [Nat.add]; now apply handlers_get. }
  unfold client_call. rewrite H. destruct (streaming m) eqn:T; unfold streaming in T.
  - destruct (client_index_stream (handlerNames s) _ k m 0 0 0 H T) as (idx & A & _ & B). rewrite A. rewrite Nat.sub_0_r in B.
    assert (negb (me_server m) && negb (me_client m) = false) as -> by (destruct (me_server m), (me_client m); auto; discriminate). fold (Streams s) in B. rewrite B.
    eexists. split; [reflexivity|]. split; [exact SV|]. rewrite T. eexists. split; [reflexivity|]. split; [eapply nth_error_In; eauto|]. cbn. auto.
  - destruct (client_index_some _ k m 0 0 H) as (idx & A). rewrite A. apply orb_false_iff in T. destruct T as [T1 T2]. rewrite T1, T2. cbn [negb andb orb]. eexists. split; [reflexivity|]. split; [exact SV|reflexivity].
Qed.
Print Assumptions C51_stubs.
(** p.S with unary A, bidi B, server-streaming C, unary D. *)
Definition c51_s : service := mkService [112; 46; 83] [83] [mkMethod [65] [65] false false; mkMethod [66] [66] true true; mkMethod [67] [67] false true; mkMethod [68] [68] false false].
Example C51_ex : map (fun k => match client_call c51_s k with Some c => serve c51_s (path_of c) | None => None end) [0; 1; 2; 3]%nat = [Some [65]; Some [66]; Some [67]; Some [68]] /\
  NoDup (map me_name (sv_methods c51_s)) /\ (forall m, In m (sv_methods c51_s) -> ~ In 47 (me_name m)).
Proof.
  split; [reflexivity|]. split; [cbn; repeat constructor; cbn; intuition discriminate|].
  intros m Hm. cbn in Hm. intuition (subst; cbn in *; intuition discriminate).
Qed.
