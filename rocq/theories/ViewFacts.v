(** Readers on arbitrary input: they never panic nor run out of fuel, what they do
    depends neither on the bytes before the current position nor, when they
    succeed, on the bytes after the input. *)
From Coq Require Import ZArith List Bool Lia.
From Verif Require Import Base BaseFacts Schema Value Helpers Unmarshal WireSpec Typing RecordSpec
  VarintFacts SkipFacts NumFacts.
Import ListNotations.
Open Scope Z_scope.

(** Position [i] in [data] and position [i'] in [data'] both have [rest] ahead;
    [data'] continues with [s']. *)
Definition view (data data' : list Z) (i i' : Z) (rest s' : list Z) : Prop :=
  (exists p, data = p ++ rest /\ i = zlen p) /\
  (exists p', data' = p' ++ rest ++ s' /\ i' = zlen p') /\
  bytes_ok rest = true /\ small data /\ small data'.

Lemma view_adv data data' i i' c s s' : view data data' i i' (c ++ s) s' ->
  view data data' (i + zlen c) (i' + zlen c) s s'.
Proof.
  intros ((p & -> & ->) & (p' & -> & ->) & B & S & S'). rewrite bytes_ok_app in B.
  apply andb_true_iff in B as [B1 B2]. repeat split; auto.
  - exists (p ++ c). now rewrite app_assoc, zlen_app.
  - exists (p' ++ c). now rewrite <- !app_assoc, zlen_app.
Qed.

(** Outcomes of a consuming reader on two views of the same bytes. *)
Definition par {P A} (i i' : Z) (rest s' : list Z) (Q : A -> Prop) (E : P -> Prop)
  (r r' : res P (A * Z)) : Prop :=
  (exists c s a, rest = c ++ s /\ c <> [] /\ r = Ok (a, i + zlen c) /\ r' = Ok (a, i' + zlen c) /\ Q a)
  \/ (exists e st, r = Err e st /\ E st /\ (s' = [] -> exists e', r' = Err e' st)).

Lemma par_bind {P A B} i i' rest s' (Q : A -> Prop) (Q' : B -> Prop) (E : P -> Prop) r r'
  (k k' : A * Z -> res P (B * Z)) :
  par i i' rest s' Q E r r' ->
  (forall c s a, rest = c ++ s -> c <> [] -> Q a ->
     par (i + zlen c) (i' + zlen c) s s' Q' E (k (a, i + zlen c)) (k' (a, i' + zlen c))) ->
  par i i' rest s' Q' E (rbind r k) (rbind r' k').
Proof.
  intros [(c & s & a & -> & N & -> & -> & H)|(e & st & -> & H & H')] K.
  - cbn [rbind]. destruct (K c s a eq_refl N H) as [(c' & s2 & b & -> & N' & -> & -> & H2)|X].
    + left. exists (c ++ c'), s2, b. rewrite <- app_assoc, zlen_app, !Z.add_assoc. repeat split; auto.
      destruct c; [contradiction|discriminate].
    + right. exact X.
  - right. exists e, st. repeat split; auto. intros Z. destruct (H' Z) as [e' ->]. exists e'. reflexivity.
Qed.

(** A final step that consumes nothing. *)
Lemma par_last {P A B} i i' rest s' (Q : A -> Prop) (Q' : B -> Prop) (E : P -> Prop) r r'
  (k k' : A * Z -> res P (B * Z)) :
  par i i' rest s' Q E r r' ->
  (forall c s a, rest = c ++ s -> c <> [] -> Q a ->
     (exists b, k (a, i + zlen c) = Ok (b, i + zlen c) /\ k' (a, i' + zlen c) = Ok (b, i' + zlen c) /\ Q' b)
     \/ exists e st, k (a, i + zlen c) = Err e st /\ E st /\ (s' = [] -> exists e', k' (a, i' + zlen c) = Err e' st)) ->
  par i i' rest s' Q' E (rbind r k) (rbind r' k').
Proof.
  intros [(c & s & a & -> & N & -> & -> & H)|(e & st & -> & H & H')] K.
  - cbn [rbind]. destruct (K c s a eq_refl N H) as [(b & -> & -> & H2)|X].
    + left. exists c, s, b. auto.
    + right. exact X.
  - right. exists e, st. repeat split; auto. intros Z. destruct (H' Z) as [e' ->]. exists e'. reflexivity.
Qed.

Lemma par_lift {P A} i i' rest s' (Q : A -> Prop) (E : unit -> Prop) (E' : P -> Prop) r r' v :
  par i i' rest s' Q E r r' -> E' v -> par i i' rest s' Q E' (lift v r) (lift v r').
Proof.
  intros [(c & s & a & -> & N & -> & -> & H)|(e & st & -> & H & H')] V.
  - left. exists c, s, a. auto.
  - right. exists e, v. repeat split; auto. intros Z. destruct (H' Z) as [e' ->]. exists e'. reflexivity.
Qed.

Lemma par_weaken {P A} i i' rest s' (Q Q' : A -> Prop) (E E' : P -> Prop) r r' :
  par i i' rest s' Q E r r' -> (forall a, Q a -> Q' a) -> (forall a, E a -> E' a) ->
  par i i' rest s' Q' E' r r'.
Proof.
  intros [(c & s & a & -> & N & -> & -> & H)|(e & st & -> & H & H')] A1 A2.
  - left. exists c, s, a. repeat split; auto.
  - right. exists e, st. repeat split; auto.
Qed.

Definition any {A} (a : A) : Prop := True.

Lemma decodeVarint_par w acc data data' i i' rest s' : conv_ok w ->
  view data data' i i' rest s' ->
  par i i' rest s' (fun z => exists v, 0 <= v /\ z = Z.lor acc (w v)) any
    (decodeVarint w acc data i) (decodeVarint w acc data' i').
Proof.
  intros C ((p & -> & ->) & (p' & -> & ->) & B & S & S').
  pose proof (decodeVarint_any w acc p rest C B) as V.
  assert (forall e, decodeVarint w acc (p ++ rest) (zlen p) = Err e tt -> s' = [] ->
    exists e', decodeVarint w acc (p' ++ rest ++ s') (zlen p') = Err e' tt) as K.
  { intros e E ->. rewrite app_nil_r. pose proof (decodeVarint_any w acc p' rest C B) as V'.
    destruct V' as [bs s Er H1 H2| |]; eauto. subst rest.
    rewrite (decodeVarint_ok w acc bs p s C H1 H2) in E. discriminate. }
  destruct V as [bs s Er H1 H2| |].
  - left. exists bs, s, (Z.lor acc (w (vval bs))). subst rest. rewrite <- !app_assoc.
    rewrite (decodeVarint_ok w acc bs p' (s ++ s') C H1 H2). repeat split; auto.
    + now apply is_varint_ne.
    + exists (vval bs). split; [apply vval_nonneg|reflexivity].
  - right. eexists _, tt. repeat split. eauto.
  - right. eexists _, tt. repeat split. eauto.
Qed.

Lemma decodeFixed_par n data data' i i' rest s' : (0 < Z.of_nat n < 9) ->
  view data data' i i' rest s' ->
  par i i' rest s' (fun z => 0 <= z < 256 ^ Z.of_nat n) any (decodeFixed n data i) (decodeFixed n data' i').
Proof.
  intros Hn ((p & -> & ->) & (p' & -> & ->) & B & S & S').
  assert (forall e, decodeFixed n (p ++ rest) (zlen p) = Err e tt -> s' = [] ->
    exists e', decodeFixed n (p' ++ rest ++ s') (zlen p') = Err e' tt) as K.
  { intros e E ->. rewrite app_nil_r in *. destruct (decodeFixed_any n p' rest B S' ltac:(lia)) as [(bs & s & -> & L & _)|(e' & ->)]; eauto.
    rewrite bytes_ok_app in B. apply andb_true_iff in B as [B _].
    rewrite (decodeFixed_ok n p bs s L B S) in E. discriminate. }
  destruct (decodeFixed_any n p rest B S ltac:(lia)) as [(bs & s & -> & L & E)|(e & E)].
  - left. exists bs, s, (le_val bs). rewrite bytes_ok_app in B. apply andb_true_iff in B as [B1 B2].
    rewrite <- !app_assoc in *. rewrite (decodeFixed_ok n p' bs (s ++ s') L B1 S').
    repeat split; auto.
    + intros ->. change (zlen (@nil Z)) with 0 in L. lia.
    + now apply le_val_nonneg.
    + rewrite <- L. now apply le_val_nonneg.
  - right. exists e, tt. repeat split; eauto.
Qed.

Lemma lor_range64 a b : 0 <= a < 18446744073709551616 -> 0 <= b < 18446744073709551616 ->
  0 <= Z.lor a b < 18446744073709551616.
Proof.
  intros Ha Hb. rewrite <- (u64_id a), <- (u64_id b), <- u64_lor by lia. apply u64_range.
Qed.
Lemma lor_range32 a b : 0 <= a < 4294967296 -> 0 <= b < 4294967296 -> 0 <= Z.lor a b < 4294967296.
Proof.
  intros Ha Hb. rewrite <- (u32_id a), <- (u32_id b), <- u32_lor by lia. apply u32_range.
Qed.
Lemma lor_ranges64 a b : -9223372036854775808 <= a < 9223372036854775808 ->
  -9223372036854775808 <= b < 9223372036854775808 -> -9223372036854775808 <= Z.lor a b < 9223372036854775808.
Proof.
  intros Ha Hb. rewrite <- (s64_id a), <- (s64_id b), <- s64_lor by lia. apply s64_range.
Qed.
Lemma lor_ranges32 a b : -2147483648 <= a < 2147483648 -> -2147483648 <= b < 2147483648 ->
  -2147483648 <= Z.lor a b < 2147483648.
Proof.
  intros Ha Hb. rewrite <- (s32_id a), <- (s32_id b), <- s32_lor by lia. apply s32_range.
Qed.

Lemma decodeNumber_par k acc data data' i i' rest s' : is_num k = true -> in_range k acc = true ->
  view data data' i i' rest s' ->
  par i i' rest s' (fun z => in_range k z = true) any (decodeNumber k acc data i) (decodeNumber k acc data' i').
Proof.
  intros N R V. unfold decodeNumber.
  pose proof (fun a => decodeVarint_par (varint_conv k) a _ _ _ _ _ _ (conv_varint k) V) as PV.
  pose proof (decodeFixed_par 8 _ _ _ _ _ _ ltac:(lia) V) as P8.
  pose proof (decodeFixed_par 4 _ _ _ _ _ _ ltac:(lia) V) as P4.
  destruct k; try discriminate N; cbn [classify].
  all: try (eapply par_weaken; [apply PV| |trivial]; cbn [varint_conv in_range] in *;
       intros a (v & Hv & ->); unfold any;
       pose proof (u64_range v); pose proof (s64_range v); pose proof (u32_range v); pose proof (s32_range v);
       first [pose proof (lor_range64 acc (u64 v)) | idtac];
       pose proof (lor_ranges64 acc (s64 v)); pose proof (lor_range32 acc (u32 v));
       pose proof (lor_ranges32 acc (s32 v)); lia).
  all: try (eapply par_last; [first [apply P8|apply P4]|]; intros c s a _ _ H; left; eexists;
       split; [reflexivity|]; split; [reflexivity|]; cbn [fst fixed_conv in_range];
       cbv beta in H;
       change (256 ^ Z.of_nat 8) with 18446744073709551616 in H;
       change (256 ^ Z.of_nat 4) with 4294967296 in H;
       pose proof (s64_range a); pose proof (s32_range a); lia).
  all: eapply par_last; [apply PV|]; intros c s a _ _ (v & Hv & ->); left; eexists;
       split; [reflexivity|]; split; [reflexivity|]; cbn [fst varint_post in_range varint_conv]; rewrite Z.lor_0_l.
  - destruct (s64 v =? 0); reflexivity.
  - rewrite unzigzag32_spec. pose proof (unzz_range (v mod 4294967296) 2147483648).
    pose proof (Z.mod_pos_bound v 4294967296). lia.
  - pose proof (u64_range v). rewrite unzigzag64_spec by assumption.
    pose proof (unzz_range (u64 v) 9223372036854775808). lia.
Qed.

(** Length prefixes. *)
Lemma decodeLen_any b p rest : bytes_ok rest = true -> small (p ++ rest) ->
  (exists l q s, rest = l ++ q ++ s /\ is_len l (zlen q) /\
     decodeLen b (p ++ rest) (zlen p) = Ok (zlen p + zlen l, zlen p + zlen l + zlen q)) \/
  ((forall l q s, rest = l ++ q ++ s -> ~ is_len l (zlen q)) /\
   exists e, decodeLen b (p ++ rest) (zlen p) = Err e tt).
Proof.
  intros B S. unfold decodeLen, decodeVarint.
  set (rd := if b then _ else _).
  assert ((exists l t, rest = l ++ t /\ is_varint l = true /\ zlen l <= 10 /\
             rd = Ok (s64 (vval l), zlen p + zlen l)) \/
          ((forall l t, rest = l ++ t -> ~ (is_varint l = true /\ zlen l <= 10)) /\ exists e, rd = Err e tt)) as R.
  { assert (forall l t, rest = l ++ t -> is_varint l = true -> zlen l <= 10 ->
      rd = Ok (s64 (vval l), zlen p + zlen l)) as OKr.
    { intros l t -> H1 H2. unfold rd.
      pose proof (fun w C => decodeVarint_ok w 0 l p t C H1 H2) as D. unfold decodeVarint in D.
      destruct b.
      - rewrite D by apply conv_u64. cbn [rbind fst snd]. now rewrite Z.lor_0_l, s64_u64.
      - rewrite D by apply conv_s64. now rewrite Z.lor_0_l. }
    destruct b.
    - destruct (read_cases u64 p rest conv_u64 B) as [(l & t & E & H1 & H2 & E')|(e & E)].
      + left. exists l, t. repeat split; eauto.
      + right. split; [|exists e; unfold rd; rewrite E; reflexivity].
        intros l t E1 [H1 H2]. specialize (OKr l t E1 H1 H2). unfold rd in OKr. rewrite E in OKr. discriminate.
    - destruct (read_cases s64 p rest conv_s64 B) as [(l & t & E & H1 & H2 & E')|(e & E)].
      + left. exists l, t. repeat split; eauto.
      + right. split; [|exists e; unfold rd; rewrite E; reflexivity].
        intros l t E1 [H1 H2]. specialize (OKr l t E1 H1 H2). unfold rd in OKr. rewrite E in OKr. discriminate. }
  destruct R as [(l & t & E & H1 & H2 & ->)|(N & e & ->)].
  2:{ right. split; [|exists e; reflexivity]. intros l q s -> (L1 & L2 & _). now apply (N l (q ++ s)). }
  cbn [rbind]. unfold small in S. subst rest. rewrite !zlen_app in S.
  pose proof (zlen_nonneg p). pose proof (zlen_nonneg l). pose proof (zlen_nonneg t).
  pose proof (s64_range (vval l)) as R.
  assert (forall l0 q s, l ++ t = l0 ++ q ++ s -> is_len l0 (zlen q) ->
            0 <= s64 (vval l) /\ s64 (vval l) <= zlen t) as U.
  { intros l0 q s E L. pose proof L as (L1 & L2 & _).
    destruct (is_varint_prefix l l0 t (q ++ s) H1 L1 E) as [<- ->].
    pose proof (zlen_nonneg q). pose proof (zlen_nonneg s). rewrite zlen_app in *.
    rewrite (len_s64 l (zlen q) L) by lia. lia. }
  destruct (s64 (vval l) <? 0) eqn:E1.
  { right. split; [|eexists; reflexivity]. intros l0 q s E L. specialize (U l0 q s E L). lia. }
  destruct (s64_sum_cases (zlen p + zlen l) (s64 (vval l)) ltac:(lia) ltac:(lia)) as [->|E2].
  2:{ replace (s64 (zlen p + zlen l + s64 (vval l)) <? 0) with true by lia.
      right. split; [|eexists; reflexivity]. intros l0 q s E L. specialize (U l0 q s E L).
      rewrite s64_id in E2 by lia. lia. }
  replace (zlen p + zlen l + s64 (vval l) <? 0) with false by lia. rewrite !zlen_app.
  destruct (zlen p + (zlen l + zlen t) <? _) eqn:E3.
  { right. split; [|eexists; reflexivity]. intros l0 q s E L. specialize (U l0 q s E L). lia. }
  left. destruct (split_at t (s64 (vval l))) as (q & s & -> & Lq); [lia|].
  exists l, q, s. rewrite Lq. split; [reflexivity|]. split; [|reflexivity].
  apply len_of_s64; auto. lia.
Qed.

Lemma decodeLen_ok b p l q s : is_len l (zlen q) -> bytes_ok (l ++ q ++ s) = true -> small (p ++ l ++ q ++ s) ->
  decodeLen b (p ++ l ++ q ++ s) (zlen p) = Ok (zlen p + zlen l, zlen p + zlen l + zlen q).
Proof.
  intros L B S. destruct (decodeLen_any b p _ B S) as [(l' & q' & s0 & E & L' & ->)|(N & _)].
  2: { destruct (N l q s eq_refl L). }
  pose proof L as (L1 & _). pose proof L' as (L1' & _).
  destruct (is_varint_prefix _ _ _ _ L1 L1' E) as [<- E'].
  assert (zlen q = zlen q') as Eq; [|now rewrite Eq].
  destruct L as (_ & _ & <-). destruct L' as (_ & _ & <-). reflexivity.
Qed.

(** The two views of a length-delimited payload. *)
Lemma decodeLen_view b data data' i i' rest s' : view data data' i i' rest s' ->
  (exists l q s, rest = l ++ q ++ s /\ l <> [] /\ is_len l (zlen q) /\
     decodeLen b data i = Ok (i + zlen l, i + zlen l + zlen q) /\
     decodeLen b data' i' = Ok (i' + zlen l, i' + zlen l + zlen q) /\
     zslice data (i + zlen l) (i + zlen l + zlen q) = Some q /\
     zslice data' (i' + zlen l) (i' + zlen l + zlen q) = Some q) \/
  (exists e, decodeLen b data i = Err e tt /\ (s' = [] -> exists e', decodeLen b data' i' = Err e' tt)).
Proof.
  intros ((p & -> & ->) & (p' & -> & ->) & B & S & S').
  destruct (decodeLen_any b p rest B S) as [(l & q & s & -> & L & E)|(N & e & E)].
  - left. exists l, q, s. split; [reflexivity|]. split; [apply is_varint_ne, L|]. split; [assumption|].
    split; [assumption|].
    replace (p' ++ (l ++ q ++ s) ++ s') with (p' ++ l ++ q ++ s ++ s') in * by now rewrite <- !app_assoc.
    assert (is_len l (zlen q)) as L' by assumption.
    split; [|split].
    + pose proof L as (L1 & L2 & L3). unfold decodeLen.
      assert ((if b then do r <- decodeVarint u64 0 (p' ++ l ++ q ++ s ++ s') (zlen p'); Ok (s64 (fst r), snd r)
              else decodeVarint s64 0 (p' ++ l ++ q ++ s ++ s') (zlen p')) = @Ok unit _ (zlen q, zlen p' + zlen l)) as ->.
      { pose proof (zlen_nonneg p'). pose proof (zlen_nonneg l). pose proof (zlen_nonneg (s ++ s')).
        unfold small in S'. rewrite !zlen_app in S'. rewrite zlen_app in H1.
        destruct b; rewrite decodeVarint_ok; auto using conv_u64, conv_s64; cbn [rbind fst snd]; rewrite Z.lor_0_l.
        - rewrite s64_u64. rewrite (len_s64 _ _ L); [reflexivity|lia].
        - rewrite (len_s64 _ _ L); [reflexivity|lia]. }
      cbn [rbind]. pose proof (zlen_nonneg p'). pose proof (zlen_nonneg l). pose proof (zlen_nonneg q).
      pose proof (zlen_nonneg (s ++ s')). unfold small in S'. rewrite !zlen_app in *.
      replace (zlen q <? 0) with false by lia. rewrite s64_id by lia.
      replace (_ <? 0) with false by lia. replace (_ <? _) with false by lia. reflexivity.
    + rewrite app_assoc. rewrite <- (zlen_app p l). apply zslice_app.
    + rewrite app_assoc. rewrite <- (zlen_app p' l). apply zslice_app.
  - right. exists e. split; [assumption|]. intros ->. rewrite app_nil_r in *.
    destruct (decodeLen_any b p' rest B S') as [(l & q & s & Er & L & E')|(_ & X)]; [|exact X].
    destruct (N l q s Er L).
Qed.

(** Skipping. *)
Lemma Skip_view data data' i i' rest s' : view data data' i i' rest s' ->
  zslice data i (zlen data) = Some rest /\ zslice data' i' (zlen data') = Some (rest ++ s').
Proof.
  intros ((p & -> & ->) & (p' & -> & ->) & B & S & S'). split; apply zslice_suf.
Qed.

Lemma Skip_app rest s' n : bytes_ok rest = true -> small (rest ++ s') -> Skip rest = Ok n -> n <= zlen rest ->
  Skip (rest ++ s') = Ok n.
Proof.
  intros B S E Hn. assert (small rest) as S1.
  { unfold small in *. rewrite zlen_app in S. pose proof (zlen_nonneg s'). lia. }
  destruct (Skip_sound rest n B S1 E Hn) as (r & s & num & wt & -> & -> & R).
  rewrite <- app_assoc in *. now apply (Skip_complete false num wt).
Qed.

(** * What a failing number leaves in a field decoded in place *)
Lemma list_set_set {A} (l : list A) i x y : list_set (list_set l i x) i y = list_set l i y.
Proof. revert i. induction l as [|a l IH]; intros [|i]; cbn; congruence. Qed.

Lemma zget_out p : zget p (zlen p) = None.
Proof.
  unfold zget. rewrite Z.ltb_irrefl, andb_false_r. reflexivity.
Qed.
Lemma varint_left_app w : forall fuel rest p p' shift acc,
  varint_left fuel w (p ++ rest) (zlen p) shift acc = varint_left fuel w (p' ++ rest) (zlen p') shift acc.
Proof.
  induction fuel as [|fuel IH]; intros rest p p' shift acc; [reflexivity|]. cbn [varint_left].
  destruct (64 <=? shift); [reflexivity|]. destruct rest as [|b rest]; [now rewrite !app_nil_r, !zget_out|].
  rewrite !zget_app. cbv zeta. destruct (b <? 128); [reflexivity|].
  specialize (IH rest (p ++ [b]) (p' ++ [b])). rewrite !zlen_app, <- !app_assoc in IH. apply IH.
Qed.
Lemma varint_left_range k : in_place LImplicit k = true -> classify k = CVar -> forall fuel data i shift acc, in_range k acc = true ->
  in_range k (varint_left fuel (varint_conv k) data i shift acc) = true.
Proof.
  intros P C. induction fuel as [|fuel IH]; intros data i shift acc R; [assumption|]. cbn [varint_left].
  destruct (64 <=? shift); [assumption|]. destruct (zget data i) as [b|]; [|assumption]. cbv zeta.
  assert (in_range k (Z.lor acc (varint_conv k (Z.shiftl (Z.land b 127) shift))) = true) as R'.
  { generalize (Z.shiftl (Z.land b 127) shift). intros v. clear - P C R.
    destruct k; try discriminate; cbn [varint_conv in_range] in *;
       pose proof (u64_range v); pose proof (s64_range v); pose proof (u32_range v); pose proof (s32_range v);
       pose proof (lor_range64 acc (u64 v)); pose proof (lor_ranges64 acc (s64 v)); pose proof (lor_range32 acc (u32 v));
       pose proof (lor_ranges32 acc (s32 v)); lia. }
  destruct (b <? 128); auto.
Qed.
(** The number [number_start] writes. *)
Definition left_number (k : kind) (data : list Z) (i : Z) : Z :=
  match classify k with CVar => varint_left 11 (varint_conv k) data i 0 0 | _ => 0 end.
Lemma left_range k data i : in_place LImplicit k = true -> in_range k (left_number k data i) = true.
Proof.
  intros P. unfold left_number. destruct k; try discriminate P; cbn [classify]; try reflexivity; (apply varint_left_range; reflexivity).
Qed.
Lemma left_view k data data' i i' rest : view data data' i i' rest [] -> left_number k data i = left_number k data' i'.
Proof.
  intros ((p & -> & ->) & (p' & -> & ->) & _). rewrite app_nil_r. unfold left_number. destruct (classify k); try reflexivity. apply varint_left_app.
Qed.
Lemma in_place_implicit lbl k : in_place lbl k = true -> lbl = LImplicit.
Proof. destruct lbl; cbn; congruence. Qed.
Lemma number_start_store f lbl k data i v : number_start f lbl k data i v =
  if in_place lbl k then store f lbl k (VInt (left_number k data i)) v else Some v.
Proof. unfold number_start. destruct (in_place lbl k) eqn:P; [|reflexivity]. apply in_place_implicit in P as ->. reflexivity. Qed.
Lemma store_start f lbl k data i v v0 x : number_start f lbl k data i v = Some v0 -> store f lbl k x v0 = store f lbl k x v.
Proof.
  unfold number_start. destruct (in_place lbl k) eqn:P; [|congruence]. apply in_place_implicit in P as ->.
  destruct v as [ | | | | | | | |s u h| | ]; try discriminate. intros [= <-]. cbn. now rewrite list_set_set.
Qed.
Lemma number_start_vmsg f lbl k data i s u h : exists s', number_start f lbl k data i (VMsg s u h) = Some (VMsg s' u h).
Proof. unfold number_start. destruct (in_place lbl k); eexists; reflexivity. Qed.

(** Decoding a number into a message: the numeric cases of fieldItem. *)
Definition num_item (f : fdesc) (lbl : label) (k : kind) (data : list Z) (i : Z) (v : val) : res val (val * Z) :=
  do v <- orpanic (number_start f lbl k data i v);
  do r <- lift v (decodeNumber k 0 data i);
  do v' <- orpanic (store f lbl k (VInt (fst r)) v);
  Ok (v', snd r).
Lemma num_item_eq sc rec env md f lbl k wire data i v : is_num k = true ->
  fieldItem sc rec env md f lbl k wire data i v = num_item f lbl k data i v.
Proof. destruct k; try discriminate; reflexivity. Qed.
Lemma num_item_ok f lbl k data i v z j v' : v <> VNil -> decodeNumber k 0 data i = Ok (z, j) -> store f lbl k (VInt z) v = Some v' ->
  num_item f lbl k data i v = Ok (v', j).
Proof.
  intros Nv D Hs. unfold num_item. destruct (number_start f lbl k data i v) as [v0|] eqn:E.
  - cbn [orpanic rbind]. rewrite D. cbn [lift rbind fst snd]. rewrite (store_start _ _ _ _ _ _ _ _ E), Hs. reflexivity.
  - exfalso. destruct v; cbn in E; unfold number_start in E; destruct (in_place lbl k) eqn:P; try discriminate E; try (now apply Nv);
      apply in_place_implicit in P as ->; discriminate Hs.
Qed.
Lemma num_item_inv f lbl k data i v v' j : num_item f lbl k data i v = Ok (v', j) ->
  exists z, decodeNumber k 0 data i = Ok (z, j) /\ store f lbl k (VInt z) v = Some v'.
Proof.
  unfold num_item. destruct (number_start f lbl k data i v) as [v0|] eqn:E; cbn [orpanic rbind]; [|discriminate].
  destruct (decodeNumber k 0 data i) as [[z j']| | |]; cbn [lift rbind fst snd]; try discriminate.
  rewrite (store_start _ _ _ _ _ _ _ _ E). destruct (store f lbl k (VInt z) v) as [v1|] eqn:Es; cbn [orpanic rbind]; [|discriminate].
  intros E1. injection E1 as <- <-. exists z. split; [reflexivity|assumption || reflexivity].
Qed.
