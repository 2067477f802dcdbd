(** The code printed for UnmarshalVT and UnmarshalVTUnsafe does what Unmarshal.v says. *)
From Coq Require Import ZArith List Bool String Lia.
From Verif Require Import Base BaseFacts Schema Value Helpers Unmarshal WireSpec Typing RecordSpec VarintFacts TargetFacts
  GoSyntax GenSize GoUnmarshal GenUnmarshal.
Import ListNotations.
Open Scope string_scope.
Open Scope Z_scope.
Open Scope list_scope.

(** [o] is what running printed code came to, [r] what the model computes. *)
Definition ends {P A} (r : res P A) (o : uout) (G : A -> uout -> Prop) : Prop :=
  match r with
  | Ok a => G a o
  | Err e _ => exists v, o = URetn (Some e) v
  | _ => True
  end.
Definition bindo (o : uout) (k : uenvt -> val -> uout) : uout :=
  match o with UNext E v => k E v | o => o end.

Lemma ends_bind {P A B} (r : res P A) (k : A -> res P B) o f G H :
  ends r o G -> (forall a, r = Ok a -> G a o -> ends (k a) (bindo o f) H) -> ends (rbind r k) (bindo o f) H.
Proof.
  destruct r; cbn; auto. intros (v & ->) _. cbn. eauto.
Qed.
Lemma ends_lift {P A} (p : P) (r : res unit A) o G : ends r o G -> ends (lift p r) o G.
Proof. destruct r; auto. Qed.
Lemma ends_weaken {P A} (r : res P A) o (G H : A -> uout -> Prop) : ends r o G -> (forall a, r = Ok a -> G a o -> H a o) -> ends r o H.
Proof. destruct r; cbn; auto. Qed.

(** ** Scopes *)
Lemma leave_cons E0 a E v : (List.length E0 <= List.length E)%nat -> uleave E0 (UNext (a :: E) v) = uleave E0 (UNext E v).
Proof.
  intros H. cbn [uleave List.length]. replace (S (List.length E) - List.length E0)%nat with (S (List.length E - List.length E0)) by lia. reflexivity.
Qed.
Lemma leave_brk E0 a E v : (List.length E0 <= List.length E)%nat -> uleave E0 (UBrk (a :: E) v) = uleave E0 (UBrk E v).
Proof.
  intros H. cbn [uleave List.length]. replace (S (List.length E) - List.length E0)%nat with (S (List.length E - List.length E0)) by lia. reflexivity.
Qed.
Lemma leave_same E0 E v : List.length E = List.length E0 -> uleave E0 (UNext E v) = UNext E v.
Proof. intros H. cbn [uleave]. rewrite H, Nat.sub_diag. reflexivity. Qed.
Lemma leave_same_brk E0 E v : List.length E = List.length E0 -> uleave E0 (UBrk E v) = UBrk E v.
Proof. intros H. cbn [uleave]. rewrite H, Nat.sub_diag. reflexivity. Qed.
Lemma leave_app E0 T E v : List.length E = List.length E0 -> uleave E0 (UNext (T ++ E) v) = UNext E v.
Proof.
  intros H. cbn [uleave]. rewrite app_length, <- H. replace (List.length T + List.length E - List.length E)%nat with (List.length T) by lia.
  rewrite skipn_app, skipn_all, Nat.sub_diag. reflexivity.
Qed.
Lemma assign_length E x u E' : uassign E x u = Some E' -> List.length E' = List.length E.
Proof.
  revert E'. induction E as [|[y w] E IH]; intros E' H; [discriminate|]. cbn in H.
  destruct (String.eqb x y); [injection H as <-; reflexivity|].
  destruct (uassign E x u) as [E2|]; [|discriminate]. injection H as <-. cbn. now rewrite (IH E2).
Qed.

(** ** Ranges of varints *)
Definition int64 (z : Z) : Prop := Z.shiftr z 63 = 0 \/ Z.shiftr z 63 = -1.
Lemma int64_iff z : int64 z <-> -9223372036854775808 <= z < 9223372036854775808.
Proof.
  unfold int64. rewrite Z.shiftr_div_pow2 by lia. change (2 ^ 63) with 9223372036854775808.
  pose proof (Z.div_mod z 9223372036854775808). pose proof (Z.mod_pos_bound z 9223372036854775808). lia.
Qed.
Lemma int64_lor a b : int64 a -> int64 b -> int64 (Z.lor a b).
Proof. unfold int64. rewrite Z.shiftr_lor. intros [->| ->] [->| ->]; cbn; auto. Qed.
Definition uint64 (z : Z) : Prop := Z.shiftr z 64 = 0.
Lemma uint64_iff z : uint64 z <-> 0 <= z < 18446744073709551616.
Proof.
  unfold uint64. rewrite Z.shiftr_div_pow2 by lia. change (2 ^ 64) with 18446744073709551616.
  pose proof (Z.div_mod z 18446744073709551616). pose proof (Z.mod_pos_bound z 18446744073709551616). lia.
Qed.
Lemma uint64_lor a b : uint64 a -> uint64 b -> uint64 (Z.lor a b).
Proof. unfold uint64. rewrite Z.shiftr_lor. intros -> ->. reflexivity. Qed.
Lemma s64_range z : -9223372036854775808 <= s64 z < 9223372036854775808.
Proof.
  unfold s64. pose proof (Z.mod_pos_bound z 18446744073709551616). cbv zeta. destruct (Z.ltb_spec (z mod 18446744073709551616) 9223372036854775808); lia.
Qed.
Lemma u64_range z : 0 <= u64 z < 18446744073709551616.
Proof. unfold u64. apply Z.mod_pos_bound. lia. Qed.
Lemma read_varint_in (P : Z -> Prop) w data : (forall a b, P a -> P b -> P (Z.lor a b)) -> (forall z, P (w z)) ->
  forall fuel i sh acc z j, P acc -> read_varint fuel w data i sh acc = Ok (z, j) -> P z /\ 0 < j <= zlen data /\ i < j.
Proof.
  intros PL PW. induction fuel as [|fuel IH]; intros i sh acc z j Pa H; cbn [read_varint] in H; [discriminate|].
  destruct (64 <=? sh); [discriminate|]. destruct (zlen data <=? i) eqn:E; [discriminate|].
  destruct (zget data i) as [b|] eqn:Zg; [|discriminate]. cbn [orpanic rbind] in H. cbv zeta in H.
  assert (0 <= i < zlen data) as Bi by (unfold zget in Zg; destruct (0 <=? i) eqn:E1, (i <? zlen data) eqn:E2; try discriminate; lia).
  destruct (b <? 128).
  - injection H as <- <-. split; [auto|lia].
  - apply IH in H; [|auto]. destruct H as (H1 & H2 & H3). split; [assumption|lia].
Qed.
Lemma varint_int data i z j : decodeVarint s64 0 data i = Ok (z, j) ->
  -9223372036854775808 <= z < 9223372036854775808 /\ 0 < j <= zlen data /\ i < j.
Proof.
  intros H. rewrite <- int64_iff. eapply (read_varint_in int64); [apply int64_lor| | |exact H]; [|left; reflexivity]. intros x. apply int64_iff, s64_range.
Qed.
Lemma varint_uint data i z j : decodeVarint u64 0 data i = Ok (z, j) ->
  0 <= z < 18446744073709551616 /\ 0 < j <= zlen data /\ i < j.
Proof.
  intros H. rewrite <- uint64_iff. eapply (read_varint_in uint64); [apply uint64_lor| | |exact H]; [|reflexivity]. intros x. apply uint64_iff, u64_range.
Qed.
Lemma bytes_ok_slice d i j q : bytes_ok d = true -> zslice d i j = Some q -> bytes_ok q = true /\ zlen q = j - i /\ 0 <= i <= j /\ j <= zlen d.
Proof.
  intros B H. unfold zslice in H. destruct (0 <=? i) eqn:E1, (i <=? j) eqn:E2, (j <=? zlen d) eqn:E3; try discriminate. injection H as <-.
  split; [|split; [unfold zlen in *; rewrite firstn_length, skipn_length; lia|lia]].
  unfold bytes_ok in *. rewrite forallb_forall in *. intros x Hx. apply B.
  rewrite <- (firstn_skipn (Z.to_nat i) d). apply in_or_app. right. rewrite <- (firstn_skipn (Z.to_nat (j - i)) (skipn (Z.to_nat i) d)). apply in_or_app. now left.
Qed.

(** Messages the methods can merge into: enough struct members, and so for the messages they
    would merge further records into. *)
Definition inner (lbl : label) (n : Z) (x : val) : list val :=
  match lbl with
  | LOneof => match x with VOneof k y => if k =? n then [y] else [] | _ => [] end
  | LRepeated _ => []
  | _ => match x with VNil => [] | _ => [x] end
  end.
Inductive room (sc : schema) : nat -> val -> Prop :=
| room_foreign m v : md_foreign (md_of sc m) = true -> room sc m v
| room_msg m s u h : List.length s = md_nslots (md_of sc m) ->
    (forall f lbl k m' x, In f (md_fields (md_of sc m)) -> f_ty f = TField lbl k -> sub_of k = Some m' ->
       In x (inner lbl (f_num f) (slot s (f_slot f))) -> room sc m' x) ->
    (forall f p k m' x, In f (md_fields (md_of sc m)) -> f_ty f = TField (LRepeated p) k -> sub_of k = Some m' ->
       In x (nth (f_slot f) h []) -> x <> VNil -> room sc m' x) ->
    room sc m (VMsg s u h).

Section Facts.
Variable sc : schema.
Variable self : nat.
Variable data : list Z.
Variable base : Z.
Variable alloc : Z -> nat -> val.
Variable spare : Z -> nat -> Z.
Variable callee : Z -> nat -> list Z -> val -> res val val.
Variable rounds : nat.
Hypothesis Bd : bytes_ok data = true.
Hypothesis Sm : small data.
Hypothesis R11 : (11 <= rounds)%nat.
Hypothesis Rlen : (S (List.length data) <= rounds)%nat.

Notation ex := (uexec sc self data base alloc spare callee rounds).
Notation evl := (ev sc data base alloc spare).
Notation L := (zlen data).

Lemma ex_seq n a b E v : ex n (USeq a b) E v = bindo (ex n a E v) (ex n b).
Proof. cbn [uexec]. destruct (ex n a E v); reflexivity. Qed.
Lemma ex_nil n E v : ex n (ublock []) E v = UNext E v. Proof. reflexivity. Qed.
Lemma ex_cons n s l E v : ex n (ublock (s :: l)) E v = bindo (ex n s E v) (ex n (ublock l)).
Proof. apply ex_seq. Qed.
Lemma ex_app n a b E v : ex n (ublock (a ++ b)) E v = bindo (ex n (ublock a) E v) (ex n (ublock b)).
Proof.
  revert E v. induction a as [|s a IH]; intros E v; [reflexivity|]. cbn [app]. rewrite !ex_cons.
  destruct (ex n s E v); cbn [bindo]; auto.
Qed.
Lemma ex_if n c a b E v z : evl E v c = Some (VInt z) ->
  ex n (UIf c a b) E v = uleave E (if z =? 0 then ex n b E v else ex n a E v).
Proof. intros H. cbn [uexec]. rewrite H. cbn [truth]. destruct (z =? 0); reflexivity. Qed.
(** A check: [if c { return e }]. *)
Lemma ex_check n c e o E v b : evl E v c = Some (zb b) -> uret E e = Some o ->
  ex n (UIf c (URet e) USkip) E v = if b then URetn o v else UNext E v.
Proof.
  intros H He. cbn [uexec]. rewrite H, He. unfold zb. destruct b; cbn [truth Z.eqb negb uleave]; [reflexivity|].
  now rewrite Nat.sub_diag.
Qed.

(** Variables in scope as a function of iNdEx. *)
Record kinv (K : Z -> uenvt) : Prop := {
  k_index : forall i, ulook (K i) "iNdEx" = Some (UV (VInt i));
  k_l : forall i, ulook (K i) "l" = Some (UV (VInt L));
  k_assign : forall i j, uassign (K i) "iNdEx" (UV (VInt j)) = Some (K j) }.
Lemma k_len K : kinv K -> forall i j, List.length (K i) = List.length (K j).
Proof. intros H i j. symmetry. eapply assign_length, (k_assign K H). Qed.
Lemma kinv_push K x u : kinv K -> String.eqb "iNdEx" x = false -> String.eqb "l" x = false -> kinv (fun i => (x, u) :: K i).
Proof.
  intros H N1 N2. constructor; intros; cbn [ulook uassign]; rewrite ?N1, ?N2.
  - apply (k_index K H).
  - apply (k_l K H).
  - now rewrite (k_assign K H).
Qed.

(** Where a number is accumulated: [F i a] are the variables and the message when iNdEx is [i]
    and the number so far is [a]. *)
Record linv (l : lval) (F : Z -> Z -> uenvt * val) : Prop := {
  l_index : forall i a, ulook (fst (F i a)) "iNdEx" = Some (UV (VInt i));
  l_l : forall i a, ulook (fst (F i a)) "l" = Some (UV (VInt L));
  l_assign : forall i j a, uassign (fst (F i a)) "iNdEx" (UV (VInt j)) = Some (fst (F j a));
  l_msg : forall i j a, snd (F i a) = snd (F j a);
  l_read : forall i a b s, uread (("b", b) :: ("shift", s) :: fst (F i a)) (snd (F i a)) l = Some (VInt a);
  l_write : forall i a c b s, uwrite (("b", b) :: ("shift", s) :: fst (F i a)) (snd (F i a)) l (VInt c)
    = Some (("b", b) :: ("shift", s) :: fst (F i c), snd (F i c));
  l_set : forall i a c, uwrite (fst (F i a)) (snd (F i a)) l (VInt c) = Some (F i c);
  l_len : forall i j a c, List.length (fst (F i a)) = List.length (fst (F j c)) }.

Lemma linv_var x K v : kinv K -> String.eqb "iNdEx" x = false -> String.eqb "l" x = false ->
  String.eqb x "b" = false -> String.eqb x "shift" = false ->
  linv (LVar x) (fun i a => ((x, UV (VInt a)) :: K i, v)).
Proof.
  intros H N1 N2 N3 N4. constructor; intros; cbn [fst snd ulook uassign uread uwrite]; unfold var; cbn [ulook]; rewrite ?N1, ?N2, ?N3, ?N4, ?String.eqb_refl; auto.
  - apply (k_index K H).
  - apply (k_l K H).
  - now rewrite (k_assign K H).
  - cbn [List.length]. now rewrite (k_len K H i j).
Qed.

Lemma linv_slot K s u h n : kinv K -> (n < List.length s)%nat ->
  linv (LSlot n) (fun i a => (K i, VMsg (list_set s n (VInt a)) u h)).
Proof.
  intros H Hn. constructor; intros; cbn [fst snd uread uwrite get_slot set_slot].
  - apply (k_index K H).
  - apply (k_l K H).
  - apply (k_assign K H).
  - reflexivity.
  - unfold slot. now rewrite nth_list_set_eq.
  - enough (list_set (list_set s n (VInt a)) n (VInt c) = list_set s n (VInt c)) as -> by reflexivity.
    clear. revert n. induction s; destruct n; cbn; auto. now rewrite IHs.
  - enough (list_set (list_set s n (VInt a)) n (VInt c) = list_set s n (VInt c)) as -> by reflexivity.
    clear. revert n. induction s; destruct n; cbn; auto. now rewrite IHs.
  - apply (k_len K H).
Qed.

Lemma conv_byte y b : 0 <= b <= 127 -> conv y b = b.
Proof.
  intros H. destruct y; cbn [conv]; try reflexivity.
  all: try (apply s64_id; lia). all: try (unfold u64, u32; apply Z.mod_small; lia).
  destruct k; try reflexivity. all: try (apply s64_id; lia). all: try (unfold u64, u32; apply Z.mod_small; lia).
  all: unfold s32; rewrite Z.mod_small by lia; destruct (Z.ltb_spec b 2147483648); lia.
Qed.
Lemma land127 b : 0 <= Z.land b 127 <= 127.
Proof.
  change 127 with (Z.ones 7). rewrite Z.land_ones by lia. pose proof (Z.mod_pos_bound b (2 ^ 7)). change (2 ^ 7) with 128 in *. change (Z.ones 7) with 127. lia.
Qed.
Lemma zget_bounds i b : zget data i = Some b -> 0 <= i < L.
Proof. unfold zget. destruct (0 <=? i) eqn:E1, (i <? L) eqn:E2; try discriminate. lia. Qed.

(** ** Varints *)
Definition vbody : ustmt -> Z -> uenvt -> val -> uout := fun a n E v =>
  match uleave E (ex n a E v) with
  | UNext E' v' => uset E' v' (LVar "shift") (arith Z.add (var E' "shift") (Some (VInt 7)))
  | o => o
  end.

Lemma varint_loop l y F n (Fi : linv l F) : forall fuel k i sh acc, (fuel <= k)%nat ->
  ends (read_varint fuel (conv y) data i sh acc)
    (uloop k (fun _ _ => Some true)
      (vbody (ublock
        [UIf (XGe (XVar "shift") (num 64)) (URet (RHelper "ErrIntOverflow" EIntOverflow)) USkip;
         UIf (XGe iNdEx (XVar "l")) (URet REOF) USkip;
         UDef "b" (XByte iNdEx); UInc "iNdEx";
         UOr l (XShl y (XConv y (XAnd (XVar "b") (XLit "0x7F" 127))) (XVar "shift"));
         UIf (XLt (XVar "b") (XLit "0x80" 128)) UBreak USkip]) n)
      (("shift", UV (VInt sh)) :: fst (F i acc)) (snd (F i acc)))
    (fun r o => exists s, o = UNext (("shift", s) :: fst (F (snd r) (fst r))) (snd (F (snd r) (fst r)))).
Proof.
  induction fuel as [|fuel IH]; intros k i sh acc Hk; [exact Logic.I|].
  destruct k as [|k]; [lia|]. cbn [uloop read_varint]. unfold vbody at 1.
  set (E := ("shift", UV (VInt sh)) :: fst (F i acc)). set (v := snd (F i acc)).
  rewrite ex_cons, (ex_check _ _ _ (Some EIntOverflow) E v (sh >=? 64)) by reflexivity. rewrite Z.geb_leb.
  destruct (64 <=? sh); [cbn; eauto|]. cbn [bindo].
  assert (var E "iNdEx" = Some (VInt i)) as Vi by (unfold var, E; cbn [ulook String.eqb Ascii.eqb Bool.eqb]; now rewrite (l_index l F Fi)).
  assert (var E "l" = Some (VInt L)) as Vl by (unfold var, E; cbn [ulook String.eqb Ascii.eqb Bool.eqb]; now rewrite (l_l l F Fi)).
  rewrite ex_cons, (ex_check _ _ _ (Some EUnexpectedEOF) E v (i >=? L)); [|cbn [ev iNdEx rel]; now rewrite Vi, Vl|reflexivity].
  rewrite Z.geb_leb. destruct (L <=? i); [cbn; eauto|]. cbn [bindo]. rewrite ex_cons. cbn [uexec ev iNdEx]. rewrite Vi.
  destruct (zget data i) as [b|] eqn:Zg; [|exact Logic.I]. cbn [orpanic rbind bindo]. pose proof (zget_bounds _ _ Zg) as Bi.
  assert (small data) as Sm' by exact Sm. unfold small in Sm'.
  rewrite ex_cons. cbn [uexec]. unfold var at 1. cbn [ulook String.eqb Ascii.eqb Bool.eqb]. fold E. fold (var E "iNdEx"). change (match ulook E "iNdEx" with Some (UV v0) => Some v0 | _ => None end) with (var E "iNdEx"). rewrite Vi. cbn [arith uset uwrite].
  rewrite (s64_id (i + 1)) by lia.
  assert (uassign (("b", UV (VInt b)) :: E) "iNdEx" (UV (VInt (i + 1))) = Some (("b", UV (VInt b)) :: ("shift", UV (VInt sh)) :: fst (F (i + 1) acc))) as ->.
  { unfold E. cbn [uassign String.eqb Ascii.eqb Bool.eqb]. now rewrite (l_assign l F Fi). }
  cbn [bindo]. rewrite ex_cons. cbn [uexec]. unfold v. rewrite (l_msg l F Fi i (i + 1) acc), (l_read l F Fi).
  cbn [ev]. unfold var. cbn [ulook String.eqb Ascii.eqb Bool.eqb arith uset]. rewrite (conv_byte _ _ (land127 b)), (l_write l F Fi). cbn [bindo].
  set (acc' := Z.lor acc (conv y (Z.shiftl (Z.land b 127) sh))). set (F' := F (i + 1) acc').
  rewrite ex_cons. rewrite (ex_if _ _ _ _ _ _ (if b <? 128 then 1 else 0)) by (cbn [ev]; unfold var; cbn [ulook String.eqb Ascii.eqb Bool.eqb]; reflexivity).
  assert (List.length (fst F') = List.length (fst (F i acc))) as LF by apply (l_len l F Fi).
  destruct (b <? 128).
  - cbn [Z.eqb Pos.eqb uexec]. rewrite leave_same_brk by reflexivity. cbn [bindo].
    rewrite leave_brk by (unfold E; cbn [List.length]; lia). rewrite leave_same_brk by (unfold E; cbn [List.length]; lia).
    rewrite leave_same_brk by (unfold E; cbn [List.length]; lia). cbn. eauto.
  - cbn [Z.eqb Pos.eqb uexec]. rewrite leave_same by reflexivity. cbn [bindo]. rewrite ex_nil.
    rewrite leave_cons by (unfold E; cbn [List.length]; lia). rewrite leave_same by (unfold E; cbn [List.length]; lia).
    unfold var. cbn [ulook String.eqb Ascii.eqb Bool.eqb arith uset uwrite uassign].
    rewrite leave_same by (unfold E; cbn [List.length]; lia). apply IH. lia.
Qed.

Lemma varint_sim l y F n i acc (Fi : linv l F) :
  ends (decodeVarint (conv y) acc data i) (ex n (u_varint l y) (fst (F i acc)) (snd (F i acc)))
    (fun r o => o = UNext (fst (F (snd r) (fst r))) (snd (F (snd r) (fst r)))).
Proof.
  unfold decodeVarint, u_varint. cbn [uexec].
  pose proof (varint_loop l y F n Fi 11 rounds i 0 acc R11) as H.
  match goal with |- ends _ (uleave _ ?x) _ => match type of H with ends _ ?y0 _ => change y0 with x in H; set (o := x) in * end end.
  destruct (read_varint _ _ _ _ _ _) as [[z j]|e p| |]; cbn [ends fst snd] in *; auto.
  - destruct H as (s & ->). rewrite leave_cons by (rewrite (l_len l F Fi i j acc z); lia). rewrite leave_same by apply (l_len l F Fi). reflexivity.
  - destruct H as (v & ->). cbn. eauto.
Qed.

(** ** Fixed-width numbers *)
Lemma fixed_sim l y F n w i acc (Fi : linv l F) : 
  ends (decodeFixed w data i) (ex n (ublock (u_fixed w l y)) (fst (F i acc)) (snd (F i acc)))
    (fun r o => o = UNext (fst (F (snd r) (conv y (fst r)))) (snd (F (snd r) (conv y (fst r))))).
Proof.
  unfold decodeFixed, u_fixed. assert (var (fst (F i acc)) "iNdEx" = Some (VInt i)) as Vi by (unfold var; now rewrite (l_index l F Fi)).
  assert (var (fst (F i acc)) "l" = Some (VInt L)) as Vl by (unfold var; now rewrite (l_l l F Fi)).
  rewrite ex_cons, (ex_check _ _ _ (Some EUnexpectedEOF) _ _ (s64 (i + Z.of_nat w) >? L)); [|cbn [ev iNdEx num]; rewrite Vi, Vl; reflexivity|reflexivity].
  rewrite Z.gtb_ltb. destruct (L <? s64 (i + Z.of_nat w)); [cbn; eauto|]. cbn [bindo].
  rewrite ex_cons. cbn [uexec ev]. unfold index. rewrite Vi. cbn [number].
  destruct (zslice data i (i + Z.of_nat w)) as [bs|] eqn:Zs; [|exact Logic.I]. cbn [orpanic rbind]. pose proof (bytes_ok_slice _ _ _ _ Bd Zs) as (_ & _ & B1 & B2).
  cbn [uset]. rewrite (l_set l F Fi). destruct (F i (conv y (le_get bs))) as [E1 v1] eqn:EF. cbn [bindo].
  assert (E1 = fst (F i (conv y (le_get bs)))) as -> by (now rewrite EF). assert (v1 = snd (F i (conv y (le_get bs)))) as -> by (now rewrite EF). clear EF.
  rewrite ex_cons. cbn [uexec]. unfold var. rewrite (l_index l F Fi). cbn [ev num arith uset uwrite].
  assert (small data) as Sm' by exact Sm. unfold small in Sm'. rewrite s64_id by lia. rewrite (l_assign l F Fi). cbn [bindo]. rewrite ex_nil. cbn [ends fst snd].
  f_equal. apply (l_msg l F Fi).
Qed.

(** ** Lengths *)
Definition avoids (x : string) : bool :=
  negb (String.eqb "iNdEx" x || String.eqb "l" x || String.eqb x "b" || String.eqb x "shift").
Lemma avoids_spec x : avoids x = true -> String.eqb "iNdEx" x = false /\ String.eqb "l" x = false /\ String.eqb x "b" = false /\ String.eqb x "shift" = false.
Proof. unfold avoids. rewrite negb_true_iff, !orb_false_iff. tauto. Qed.
Lemma kpush K x u : kinv K -> avoids x = true -> kinv (fun i => (x, u) :: K i).
Proof. intros H A. apply avoids_spec in A as (A & B & _). now apply kinv_push. Qed.
Lemma lpush K x v : kinv K -> avoids x = true -> linv (LVar x) (fun i a => ((x, UV (VInt a)) :: K i, v)).
Proof. intros H A. apply avoids_spec in A as (A & B & C & D). now apply linv_var. Qed.

Lemma kvar K i : kinv K -> var (K i) "iNdEx" = Some (VInt i).
Proof. intros H. unfold var. now rewrite (k_index K H). Qed.
Lemma kvar_l K i : kinv K -> var (K i) "l" = Some (VInt L).
Proof. intros H. unfold var. now rewrite (k_l K H). Qed.
Lemma var_cons x y u E : String.eqb x y = false -> var ((y, u) :: E) x = var E x.
Proof. intros H. unfold var. cbn [ulook]. now rewrite H. Qed.
Lemma var_here x u E : var ((x, UV u) :: E) x = Some u.
Proof. unfold var. cbn [ulook]. now rewrite String.eqb_refl. Qed.

Lemma check_sim K ln post n i z v : kinv K -> avoids post = true -> String.eqb ln post = false ->
  -9223372036854775808 <= z < 9223372036854775808 -> 0 <= i <= L -> var (K i) ln = Some (VInt z) ->
  ends (P := unit) (if z <? 0 then Err EInvalidLength tt else
        let p := s64 (i + z) in
        if p <? 0 then Err EInvalidLength tt else
        if L <? p then Err EUnexpectedEOF tt else Ok (i, p))
    (ex n (ublock (u_check ln post)) (K i) v)
    (fun r o => fst r = i /\ o = UNext ((post, UV (VInt (snd r))) :: K i) v /\ snd r = i + z /\ i <= snd r <= L).
Proof.
  intros HK Ap Nl Hz Hi Vn. apply avoids_spec in Ap as (A1 & A2 & _). unfold u_check, bad_length.
  rewrite ex_cons, (ex_check _ _ _ (Some EInvalidLength) _ _ (z <? 0)); [|cbn [ev num]; now rewrite Vn|reflexivity].
  destruct (z <? 0) eqn:E1; [cbn; eauto|]. cbn [bindo]. rewrite ex_cons. cbn [uexec ev iNdEx]. rewrite (kvar K i HK), Vn. cbn [arith bindo]. cbv zeta.
  rewrite ex_cons, (ex_check _ _ _ (Some EInvalidLength) _ _ (s64 (i + z) <? 0)); [|cbn [ev num]; now rewrite var_here|reflexivity].
  destruct (s64 (i + z) <? 0) eqn:E2; [cbn; eauto|]. cbn [bindo].
  rewrite ex_cons, (ex_check _ _ _ (Some EUnexpectedEOF) _ _ (s64 (i + z) >? L)); [|cbn [ev]; rewrite var_here, var_cons, (kvar_l K i HK) by assumption; reflexivity|reflexivity].
  rewrite Z.gtb_ltb. destruct (L <? s64 (i + z)) eqn:E3; [cbn; eauto|]. cbn [bindo]. rewrite ex_nil. cbn [ends fst snd].
  assert (s64 (i + z) = i + z) as Q.
  { assert (small data) as Sm' by exact Sm. unfold small in Sm'. destruct (Z_lt_dec (i + z) 9223372036854775808); [apply s64_id; lia|].
    exfalso. unfold s64 in E2. rewrite Z.mod_small in E2 by lia. destruct (Z.ltb_spec (i + z) 9223372036854775808); lia. }
  rewrite Q in *. repeat split; auto; lia.
Qed.

Lemma len_int_sim K ln post n i v : kinv K -> avoids ln = true -> avoids post = true -> String.eqb ln post = false ->
  ends (decodeLen false data i) (ex n (ublock (u_len_int ln post)) (K i) v)
    (fun r o => exists z, o = UNext ((post, UV (VInt (snd r))) :: (ln, UV (VInt z)) :: K (fst r)) v /\ snd r = fst r + z /\ 0 <= fst r <= snd r /\ snd r <= L).
Proof.
  intros HK A1 A2 N. unfold decodeLen, u_len_int. rewrite ex_cons. cbn [uexec bindo zero_ty]. rewrite ex_cons.
  eapply ends_bind.
  { exact (varint_sim (LVar ln) YInt _ n i 0 (lpush K ln v HK A1)). }
  intros [z j] D ->. cbn [fst snd bindo]. apply varint_int in D as (D1 & D2 & D3).
  eapply ends_weaken; [apply (check_sim (fun i => (ln, UV (VInt z)) :: K i) ln post n j z v); auto; [now apply kpush|lia|apply var_here]|].
  intros [j' p] _ (F1 & -> & F2 & F3). cbn [fst snd] in *. subst j'. exists z. repeat split; auto; lia.
Qed.

Lemma len_u64_sim K raw ln post n i v : kinv K -> avoids raw = true -> avoids ln = true -> avoids post = true -> String.eqb ln post = false ->
  ends (decodeLen true data i) (ex n (ublock (u_len_u64 raw ln post)) (K i) v)
    (fun r o => exists z, o = UNext ((post, UV (VInt (snd r))) :: (ln, UV (VInt z)) :: (raw, UV (VInt z)) :: K (fst r)) v /\ snd r = fst r + z /\ 0 <= fst r <= snd r /\ snd r <= L).
Proof.
  intros HK A0 A1 A2 N. unfold decodeLen, u_len_u64. rewrite ex_cons. cbn [uexec bindo zero_ty]. rewrite ex_cons.
  assert (forall (r : res unit (Z * Z)) (k : Z * Z -> res unit (Z * Z)), rbind (rbind r (fun r => Ok (s64 (fst r), snd r))) k = rbind r (fun r => k (s64 (fst r), snd r))) as AS by (intros [] k; reflexivity).
  rewrite AS. eapply ends_bind.
  { exact (varint_sim (LVar raw) YU64 _ n i 0 (lpush K raw v HK A0)). }
  intros [z j] D ->. cbn [fst snd bindo]. apply varint_uint in D as (D1 & D2 & D3).
  rewrite ex_cons. cbn [uexec ev]. rewrite var_here. cbn [bindo conv].
  eapply ends_weaken; [apply (check_sim (fun i => (ln, UV (VInt (s64 z))) :: (raw, UV (VInt z)) :: K i) ln post n j (s64 z) v); auto; [apply kpush; [now apply kpush|assumption]|apply s64_range|lia|apply var_here]|].
  intros [j' p] _ (F1 & -> & F2 & F3). cbn [fst snd] in *. subst j'.
  assert (z = s64 z) as Q.
  { assert (0 <= s64 z) as NN by lia. clear - D1 NN. unfold s64 in *. rewrite (Z.mod_small z) in * by lia. cbv zeta in *. destruct (Z.ltb_spec z 9223372036854775808); lia. }
  exists z. rewrite <- Q in F2 |- *. repeat split; auto; lia.
Qed.

(** ** Skip *)
Lemma skip_sim {P} (p : P) K hi b n i v : kinv K -> match hi with Some x => String.eqb x "err" = false /\ String.eqb x "skippy" = false /\ var (K i) x = Some (VInt b) | None => True end ->
  ends (do rest <- orpanic (zslice data i L);
        do skippy <- lift p (Skip rest);
        if (skippy <? 0) || (s64 (i + skippy) <? 0) then Err EInvalidLength p else
        match hi with
        | Some _ => if b <? s64 (i + skippy) then Err EUnexpectedEOF p else Ok skippy
        | None => Ok skippy
        end)
    (ex n (ublock (u_skip hi)) (K i) v)
    (fun k o => o = UNext (("err", UE None) :: ("skippy", UV (VInt k)) :: K i) v).
Proof.
  intros HK Hh. unfold u_skip. rewrite ex_app, ex_cons. cbn [uexec]. unfold index. rewrite (kvar K i HK). cbn [number].
  destruct (zslice data i L) as [rest|] eqn:Zs; [|exact Logic.I]. cbn [orpanic rbind].
  destruct (Skip rest) as [k|e []| |] eqn:Sk; try exact Logic.I; cbn [lift rbind bindo].
  2:{ rewrite ex_cons. rewrite (ex_check _ _ _ (Some e) _ _ true) by reflexivity. cbn. eauto. }
  rewrite ex_cons. rewrite (ex_check _ _ _ None _ _ false) by reflexivity. cbn [bindo]. unfold bad_length.
  set (E := ("err", UE None) :: ("skippy", UV (VInt k)) :: K i).
  assert (var E "iNdEx" = Some (VInt i)) as Vi by (unfold E; rewrite !var_cons by reflexivity; now apply kvar).
  assert (var E "skippy" = Some (VInt k)) as Vk by (unfold E; rewrite var_cons by reflexivity; apply var_here).
  rewrite ex_cons. rewrite (ex_check _ _ _ (Some EInvalidLength) _ _ ((k <? 0) || (s64 (i + k) <? 0))); [| |reflexivity].
  2:{ cbn [ev iNdEx num]. rewrite Vi, Vk. cbn [rel arith]. unfold zb. destruct (k <? 0); reflexivity. }
  destruct ((k <? 0) || (s64 (i + k) <? 0)); [cbn; eauto|]. cbn [bindo]. rewrite ex_nil. cbn [bindo].
  destruct hi as [x|]; [|reflexivity]. destruct Hh as (N1 & N2 & Vb).
  rewrite ex_cons. rewrite (ex_check _ _ _ (Some EUnexpectedEOF) _ _ (s64 (i + k) >? b)); [| |reflexivity].
  2:{ cbn [ev iNdEx num]. rewrite Vi, Vk. unfold E. rewrite !var_cons, Vb by assumption. reflexivity. }
  rewrite Z.gtb_ltb. destruct (b <? s64 (i + k)); [cbn; eauto|]. reflexivity.
Qed.

(** ** Numbers *)
Lemma list_set_twice {A} (l : list A) n x y : list_set (list_set l n x) n y = list_set l n y.
Proof. revert n. induction l; destruct n; cbn; auto. now rewrite IHl. Qed.

Definition over (T : uenvt) : bool := forallb (fun p => negb (String.eqb "hasFields" (fst p))) T.
(** A part of a case has run to its end, leaving variables behind. *)
Definition falls (K : Z -> uenvt) (r : val * Z) (o : uout) : Prop :=
  exists T, over T = true /\ o = UNext (T ++ K (snd r)) (fst r).

Lemma fixed_bits w i bs : zslice data i (i + Z.of_nat w) = Some bs -> 0 <= le_get bs < 256 ^ Z.of_nat w.
Proof.
  intros H. apply bytes_ok_slice in H as (B & Ln & _); [|exact Bd]. rewrite le_get_val by assumption.
  replace (Z.of_nat w) with (zlen bs) by lia. now apply le_val_nonneg.
Qed.
Lemma decodeFixed_range w i z j : decodeFixed w data i = Ok (z, j) -> 0 <= z < 256 ^ Z.of_nat w.
Proof.
  unfold decodeFixed. destruct (L <? _); [discriminate|]. destruct (zslice _ _ _) as [bs|] eqn:E; [|discriminate].
  cbn. intros H. injection H as <- <-. eapply fixed_bits; eauto.
Qed.
Lemma u64_id z : 0 <= z < 256 ^ 8 -> u64 z = z.
Proof. intros H. unfold u64. apply Z.mod_small. exact H. Qed.
Lemma u32_id z : 0 <= z < 256 ^ 4 -> u32 z = z.
Proof. intros H. unfold u32. apply Z.mod_small. exact H. Qed.

Lemma ends_eq {P A} (r : res P A) o G o' : ends r o G -> o = o' -> ends r o' G.
Proof. intros H <-. exact H. Qed.
Lemma ends_map {P A B} (r : res P A) (f : A -> B) o G : ends r o (fun a o => G (f a) o) -> ends (rbind r (fun a => Ok (f a))) o G.
Proof. destruct r; cbn; auto. Qed.

(** The kinds decoded in place. *)
Definition u_dec (fn : Z) (k : kind) (l : lval) : list ustmt :=
  match classify k with
  | CFix64 => u_fixed 8 l (YOf fn k)
  | CFix32 => u_fixed 4 l (YOf fn k)
  | _ => [u_varint l (YOf fn k)]
  end.
Definition direct (k : kind) : bool := in_place LImplicit k.
Lemma dec_sim fn k l F n i acc : linv l F -> direct k = true ->
  ends (decodeNumber k acc data i) (ex n (ublock (u_dec fn k l)) (fst (F i acc)) (snd (F i acc)))
    (fun r o => o = UNext (fst (F (snd r) (fst r))) (snd (F (snd r) (fst r)))).
Proof.
  intros Fi D.
  assert (forall w, (fun r => conv (YOf fn k) r) = w -> ends (decodeVarint w acc data i) (ex n (ublock [u_varint l (YOf fn k)]) (fst (F i acc)) (snd (F i acc)))
    (fun r o => o = UNext (fst (F (snd r) (fst r))) (snd (F (snd r) (fst r))))) as V.
  { intros w <-. rewrite ex_cons. pose proof (varint_sim l (YOf fn k) F n i acc Fi) as H.
    change (fun r => conv (YOf fn k) r) with (conv (YOf fn k)). destruct (decodeVarint _ _ _ _) as [[z j]|e []| |]; cbn [ends fst snd] in *; auto.
    - rewrite H. cbn [bindo]. apply ex_nil.
    - destruct H as (v & ->). cbn. eauto. }
  assert (forall w, (forall z, 0 <= z < 256 ^ Z.of_nat w -> conv (YOf fn k) z = fixed_conv k z) ->
    ends (do r <- decodeFixed w data i; Ok (fixed_conv k (fst r), snd r)) (ex n (ublock (u_fixed w l (YOf fn k))) (fst (F i acc)) (snd (F i acc)))
    (fun r o => o = UNext (fst (F (snd r) (fst r))) (snd (F (snd r) (fst r))))) as X.
  { intros w Hc. apply ends_map. eapply ends_weaken; [apply fixed_sim; exact Fi|]. intros [z j] E ->. cbn [fst snd]. now rewrite Hc by (eapply decodeFixed_range; eauto). }
  destruct k; try discriminate; unfold decodeNumber, u_dec; cbn [classify]; try (apply V; reflexivity); apply X; intros z Hz; cbn [conv fixed_conv]; auto using u64_id, u32_id.
Qed.

(** ** Strings and bytes *)
Lemma zcopy_all old bs : zlen old = zlen bs -> zcopy old 0 bs = Some bs.
Proof.
  intros H. pose proof (zcopy_app [] old [] bs H) as Z. cbn [app] in Z. rewrite !app_nil_r in Z. exact Z.
Qed.
Lemma zlen_repeat n : 0 <= n -> zlen (repeat 0 (Z.to_nat n)) = n.
Proof. intros H. unfold zlen. rewrite repeat_length. lia. Qed.
Lemma last_of_app l x : last_of (VList (l ++ [x])) = Some x.
Proof. cbn [last_of]. now rewrite rev_unit. Qed.
Lemma set_last_app l x y : set_last (VList (l ++ [x])) y = Some (VList (l ++ [y])).
Proof. cbn [set_last]. now rewrite rev_unit, rev_involutive. Qed.
Lemma zget_some i : 0 <= i < L -> exists b, zget data i = Some b.
Proof.
  intros H. unfold zget. replace ((0 <=? i) && (i <? L)) with true by lia.
  destruct (nth_error data (Z.to_nat i)) eqn:E; [eauto|]. apply nth_error_None in E. unfold zlen in H. lia.
Qed.

Definition put_index (post : string) : ustmt := USet (LVar "iNdEx") (XVar post).
Lemma put_sim K T xn post n i p mv : kinv K -> T = [] \/ (exists y, T = [(xn, y)]) -> String.eqb "iNdEx" xn = false -> String.eqb post xn = false ->
  var (K i) post = Some (VInt p) -> ex n (ublock [put_index post]) (T ++ K i) mv = UNext (T ++ K p) mv.
Proof.
  intros HK HT N1 N2 Vp. rewrite ex_cons. unfold put_index. cbn [uexec ev].
  assert (var (T ++ K i) post = Some (VInt p)) as ->.
  { destruct HT as [->|(y & ->)]; [exact Vp|]. cbn [app]. now rewrite var_cons. }
  cbn [uset uwrite]. assert (uassign (T ++ K i) "iNdEx" (UV (VInt p)) = Some (T ++ K p)) as ->; [|reflexivity].
  destruct HT as [->|(y & ->)]; cbn [app uassign]; rewrite ?N1; now rewrite (k_assign K HK).
Qed.

(** Kinds read through a variable [t]. *)
Section Temp.
Variables (K : Z -> uenvt) (t : string) (mv : val).
Hypothesis HK : kinv K.
Hypothesis At : avoids t = true.
Notation TE z j := ((t, UV (VInt z)) :: K j).

Lemma temp_fixed k w y n a i : decodeNumber k a data i = (do r <- decodeFixed w data i; Ok (fst r, snd r)) ->
  (forall z, 0 <= z < 256 ^ Z.of_nat w -> conv y z = z) ->
  ends (decodeNumber k a data i) (ex n (ublock (u_fixed w (LVar t) y)) (TE 0 i) mv) (fun r o => o = UNext (TE (fst r) (snd r)) mv).
Proof.
  intros -> Hc. apply ends_map. eapply ends_weaken; [exact (fixed_sim (LVar t) y _ n w i 0 (lpush K t mv HK At))|].
  intros [z j] E ->. cbn [fst snd]. rewrite Hc; [reflexivity|]. eapply decodeFixed_range; eauto.
Qed.
Lemma temp_bool n a i : ends (decodeNumber KBool a data i) (ex n (u_varint (LVar t) YInt) (TE 0 i) mv)
  (fun r o => exists w, fst r = (if w =? 0 then 0 else 1) /\ o = UNext (TE w (snd r)) mv).
Proof.
  unfold decodeNumber. cbn [classify]. apply ends_map. eapply ends_weaken; [exact (varint_sim (LVar t) YInt _ n i 0 (lpush K t mv HK At))|].
  intros [z j] _ ->. cbn [fst snd varint_post]. eauto.
Qed.
Lemma temp_zig32 y n a i : conv y = s32 -> ends (decodeNumber KSint32 a data i)
  (ex n (ublock [u_varint (LVar t) y; USet (LVar t) (XConv y (u_zig32 y (XVar t)))]) (TE 0 i) mv) (fun r o => o = UNext (TE (fst r) (snd r)) mv).
Proof.
  intros Hy. unfold decodeNumber. cbn [classify varint_conv]. rewrite <- Hy. rewrite ex_cons. apply ends_map. 
  pose proof (varint_sim (LVar t) y _ n i 0 (lpush K t mv HK At)) as H. cbn [fst snd] in H.
  destruct (decodeVarint _ _ _ _) as [[z j]|e []| |]; cbn [ends fst snd] in *; auto.
  - rewrite H. cbn [bindo]. rewrite ex_cons. cbn [uexec ev u_zig32 num]. rewrite var_here. cbn [arith uset uwrite uassign]. rewrite String.eqb_refl. cbn [bindo]. rewrite ex_nil.
    rewrite Hy. cbn [varint_post conv]. reflexivity.
  - destruct H as (v & ->). cbn. eauto.
Qed.
Lemma temp_zig64 n a i : ends (decodeNumber KSint64 a data i)
  (ex n (ublock [u_varint (LVar t) YU64; USet (LVar t) (u_zig64 (XVar t))]) (TE 0 i) mv) (fun r o => exists w, fst r = s64 w /\ o = UNext (TE w (snd r)) mv).
Proof.
  unfold decodeNumber. cbn [classify varint_conv]. rewrite ex_cons. apply ends_map. 
  pose proof (varint_sim (LVar t) YU64 _ n i 0 (lpush K t mv HK At)) as H. cbn [fst snd] in H. change (conv YU64) with u64 in H.
  destruct (decodeVarint _ _ _ _) as [[z j]|e []| |]; cbn [ends fst snd] in *; auto.
  - rewrite H. cbn [bindo]. rewrite ex_cons. cbn [uexec ev u_zig64 num]. rewrite var_here. cbn [arith uset uwrite uassign]. rewrite String.eqb_refl. cbn [bindo]. rewrite ex_nil.
    cbn [varint_post conv]. unfold unzigzag64.
    assert (s64 (Z.land z 1) = Z.land z 1) as -> by (apply s64_id; change 1 with (Z.ones 1); rewrite Z.land_ones by lia; pose proof (Z.mod_pos_bound z (2 ^ 1)); lia).
    eexists. split; reflexivity.
  - destruct H as (v & ->). cbn. eauto.
Qed.
End Temp.

Section Field.
Variable K : Z -> uenvt.
Hypothesis HK : kinv K.
Variable f : fdesc.
Variables (s : list val) (u : list Z) (h : list (list val)).
Hypothesis Hs : (f_slot f < List.length s)%nat.
Notation V0 := (VMsg s u h).
Notation fn := (f_num f).

Definition stored (lbl : label) (k : kind) (x : val) : val :=
  VMsg (list_set s (f_slot f)
    (match lbl with
     | LOneof => VOneof fn x
     | LRepeated _ => VList (vlist (slot s (f_slot f)) ++ [x])
     | LImplicit => x
     | LOptional | LRequired => match classify k with CByt => x | _ => VPtr x end
     end)) u h.
Lemma store_stored lbl k x : store f lbl k x V0 = Some (stored lbl k x).
Proof. destruct lbl; reflexivity. Qed.

Lemma store_sim lbl k e xn E x n : classify k <> CByt -> evl E V0 e = Some x -> (lbl = LOptional \/ lbl = LRequired -> var E xn = Some x) ->
  ex n (ublock (u_store f lbl e xn)) E V0 = UNext E (stored lbl k x).
Proof.
  intros Nb He Hx. unfold stored.
  assert (match classify k with CByt => x | _ => VPtr x end = VPtr x) as -> by (destruct (classify k); congruence).
  destruct lbl; cbn [u_store]; rewrite ex_cons; cbn [uexec ev]; rewrite ?He, ?Hx by auto; cbn [uset uwrite get_slot set_slot bindo]; apply ex_nil.
Qed.
Lemma store_var_sim lbl k e xn lst one E x n : classify k <> CByt -> evl E V0 e = Some x -> 
  exists T, ex n (ublock (u_store_var f lbl e xn lst one)) E V0 = UNext (T ++ E) (stored lbl k x) /\ (T = [] \/ exists y, T = [(xn, UV y)]).
Proof.
  intros Nb He. unfold u_store_var.
  assert (forall e', evl ((xn, UV x) :: E) V0 e' = Some x -> ex n (ublock (UDef xn e :: u_store f lbl e' xn)) E V0 = UNext ([(xn, UV x)] ++ E) (stored lbl k x)) as A.
  { intros e' He'. rewrite ex_cons. cbn [uexec]. rewrite He. cbn [bindo app]. apply store_sim; auto. intros _. apply var_here. }
  assert (evl ((xn, UV x) :: E) V0 (XVar xn) = Some x) as Vx by (cbn [ev]; apply var_here).
  assert (lbl <> LOptional -> lbl <> LRequired -> ex n (ublock (u_store f lbl e xn)) E V0 = UNext ([] ++ E) (stored lbl k x)) as B.
  { intros N1 N2. cbn [app]. apply store_sim; auto. intros [|]; contradiction. }
  assert (lbl = LOptional \/ lbl = LRequired -> ex n (ublock (UDef xn e :: u_store f lbl e xn)) E V0 = UNext ([(xn, UV x)] ++ E) (stored lbl k x)) as C.
  { intros Hl. rewrite ex_cons. cbn [uexec]. rewrite He. cbn [bindo app]. destruct Hl as [->| ->]; cbn [u_store]; rewrite ex_cons; cbn [uexec ev]; rewrite var_here; cbn [uset uwrite set_slot bindo]; rewrite ex_nil; unfold stored; destruct (classify k); congruence || reflexivity. }
  destruct lbl.
  - exists []. split; [apply B; discriminate|auto].
  - exists [(xn, UV x)]. split; [apply C; auto|eauto].
  - exists [(xn, UV x)]. split; [apply C; auto|eauto].
  - destruct lst; [exists [(xn, UV x)]|exists []]; split; eauto. apply B; discriminate.
  - destruct one; [exists [(xn, UV x)]|exists []]; split; eauto. apply B; discriminate.
Qed.

(** A numeric item, given what decodes the number. *)
Lemma num_ends rec env md lbl k wire i o G : is_num k = true ->
  ends (decodeNumber k 0 data i) o G -> 
  ends (fieldItem sc rec env md f lbl k wire data i V0) o (fun r o => exists z, fst r = stored lbl k (VInt z) /\ G (z, snd r) o /\ decodeNumber k 0 data i = Ok (z, snd r)).
Proof.
  intros N H. assert (fieldItem sc rec env md f lbl k wire data i V0 =
    do x <- orpanic (number_start f lbl k data i V0); do r <- lift x (decodeNumber k 0 data i); do v' <- orpanic (store f lbl k (VInt (fst r)) x); Ok (v', snd r)) as ->
    by (unfold fieldItem; destruct k; try discriminate; reflexivity).
  assert (exists st, number_start f lbl k data i V0 = Some st /\ forall x, store f lbl k x st = Some (stored lbl k x)) as (st & -> & Hst).
  { unfold number_start. destruct (in_place lbl k) eqn:Ip; [|exists V0; split; [reflexivity|intros; apply store_stored]].
    cbn [set_slot]. eexists. split; [reflexivity|]. intros x. destruct lbl; try discriminate. unfold store, stored. cbn [set_slot]. now rewrite list_set_twice. }
  cbn [orpanic rbind]. destruct (decodeNumber k 0 data i) as [[z j]|e []| |] eqn:D; cbn [lift rbind ends fst snd] in *; auto.
  rewrite Hst. cbn. exists z. auto.
Qed.

Variables (rec : Z -> nat -> list Z -> val -> res val val) (env : uenv) (md : mdesc).
Notation item := (fieldItem sc rec env md f).

Lemma falls_var T j z : over T = true -> falls K (z, j) (UNext (T ++ K j) z).
Proof. intros H. exists T. auto. Qed.

Lemma direct_sim n lbl k wire i : direct k = true ->
  ends (item lbl k wire data i V0) (ex n (ublock (u_direct f lbl k (u_dec fn k))) (K i) V0) (falls K).
Proof.
  intros D. assert (is_num k = true) as N by (destruct k; auto; discriminate). assert (classify k <> CByt) as Nb by (destruct k; discriminate).
  unfold u_direct.
  assert (ends (item lbl k wire data i V0) (ex n (ublock (UVar "v" (YOf fn k) :: u_dec fn k (LVar "v") ++ u_store f lbl (XVar "v") "v")) (K i) V0) (falls K)) as A.
  { rewrite ex_cons. assert (zero_ty (YOf fn k) = VInt 0) as Z0 by (destruct k; try discriminate; reflexivity). cbn [uexec]. rewrite Z0. cbn [bindo]. rewrite ex_app.
    pose proof (num_ends rec env md lbl k wire i _ _ N (dec_sim fn k (LVar "v") _ n i 0 (lpush K "v" V0 HK eq_refl) D)) as H. cbn [fst snd] in H.
    match type of H with ends _ ?x _ => set (o := x) in * end. change (ex n (ublock (u_dec fn k (LVar "v"))) (("v", UV (VInt 0)) :: K i) V0) with o.
    destruct (item lbl k wire data i V0) as [[v' j]|e p| |]; cbn [ends fst snd] in *; auto.
    - destruct H as (z & -> & -> & _). cbn [bindo fst snd]. rewrite (store_sim lbl k _ _ _ (VInt z)); [|exact Nb|cbn [ev]; apply var_here|intros _; apply var_here].
      apply (falls_var [("v", UV (VInt z))]). reflexivity.
    - destruct H as (v' & ->). cbn. eauto. }
  destruct lbl; try exact A.
  rewrite ex_cons. cbn [uexec ev num uset uwrite set_slot bindo].
  pose proof (num_ends rec env md LImplicit k wire i _ _ N (dec_sim fn k (LSlot (f_slot f)) _ n i 0 (linv_slot K s u h (f_slot f) HK Hs) D)) as H. cbn [fst snd] in H.
  eapply ends_weaken; [exact H|]. intros [v' j] _ (z & E1 & E2 & _). cbn [fst snd] in *. rewrite E1, E2. apply (falls_var []). reflexivity.
Qed.

(** Numbers read into a variable first. *)
Lemma via_sim n lbl k wire i y dec e xn lst one : is_num k = true -> zero_ty y = VInt 0 ->
  (exists g, ends (decodeNumber k 0 data i) (ex n (ublock dec) (("v", UV (VInt 0)) :: K i) V0)
       (fun r o => exists w, fst r = g w /\ o = UNext (("v", UV (VInt w)) :: K (snd r)) V0) /\
     forall j w, evl (("v", UV (VInt w)) :: K j) V0 e = Some (VInt (g w))) ->
  over [(xn, UV VNil)] = true ->
  ends (item lbl k wire data i V0) (ex n (ublock (UVar "v" y :: dec ++ u_store_var f lbl e xn lst one)) (K i) V0) (falls K).
Proof.
  intros N Z0 (g & D & He) Ox. assert (classify k <> CByt) as Nb by (destruct k; discriminate).
  rewrite ex_cons. cbn [uexec]. rewrite Z0. cbn [bindo]. rewrite ex_app.
  pose proof (num_ends rec env md lbl k wire i _ _ N D) as H. cbn [fst snd] in H.
  match type of H with ends _ ?x _ => set (o := x) in * end. 
  destruct (item lbl k wire data i V0) as [[v' j]|er p| |]; cbn [ends fst snd] in *; auto.
  - destruct H as (z & -> & (w & Ez & ->) & _). cbn [bindo fst snd]. specialize (He j w). rewrite <- Ez in He.
    destruct (store_var_sim lbl k e xn lst one (("v", UV (VInt w)) :: K j) (VInt z) n Nb He) as (T & -> & HT).
    exists (T ++ [("v", UV (VInt w))]). cbn [fst snd]. rewrite <- app_assoc. split; [|reflexivity].
    unfold over. rewrite forallb_app. destruct HT as [->|(y0 & ->)]; [reflexivity|]. unfold over in Ox. cbn [forallb fst] in *. now rewrite Ox.
  - destruct H as (v' & ->). cbn. eauto.
Qed.

Variables (dp : nat -> dispatch) (pool : nat -> bool) (unique : Z -> bool) (unsafe : bool).
Notation itm p := (u_item dp pool unique unsafe p f).

Lemma number_sim p n lbl k wire i : is_num k = true ->
  ends (item lbl k wire data i V0) (ex n (ublock (itm p lbl k)) (K i) V0) (falls K).
Proof.
  intros N. destruct (direct k) eqn:D.
  { pose proof (direct_sim n lbl k wire i D) as H. destruct k; try discriminate; exact H. }
  destruct k; try discriminate; unfold u_item.
  - apply via_sim; try reflexivity. exists (fun w => w). split.
    + eapply ends_weaken; [apply (temp_fixed K "v" V0 HK eq_refl KDouble 8 YU64 n 0 i); [reflexivity|intros; now apply u64_id]|]. intros [z j] _ ->. eauto.
    + intros j w. cbn [ev]. now rewrite var_here.
  - apply via_sim; try reflexivity. exists (fun w => w). split.
    + eapply ends_weaken; [apply (temp_fixed K "v" V0 HK eq_refl KFloat 4 YU32 n 0 i); [reflexivity|intros; now apply u32_id]|]. intros [z j] _ ->. eauto.
    + intros j w. cbn [ev]. now rewrite var_here.
  - apply (via_sim n lbl KBool wire i YInt [_]); try reflexivity. exists (fun w => if w =? 0 then 0 else 1). split.
    + rewrite ex_cons. pose proof (temp_bool K "v" V0 HK eq_refl n 0 i) as H. destruct (decodeNumber _ _ _ _) as [[z j]|e q| |]; cbn [ends fst snd] in *; auto.
      * destruct H as (w & Hw & ->). cbn [bindo]. rewrite ex_nil. eauto.
      * destruct H as (v & ->). cbn. eauto.
    + intros j w. cbn [ev num]. rewrite var_here. cbn [rel zb conv]. destruct (w =? 0); reflexivity.
  - change (ublock _) with (ublock (UVar "v" (YOf fn KSint32) :: [u_varint (LVar "v") (YOf fn KSint32); USet (LVar "v") (XConv (YOf fn KSint32) (u_zig32 (YOf fn KSint32) (XVar "v")))] ++ u_store f lbl (XVar "v") "v")).
    rewrite ex_cons. cbn [uexec zero_ty map_zero classify bindo]. rewrite ex_app.
    pose proof (num_ends rec env md lbl KSint32 wire i _ _ N (temp_zig32 K "v" V0 HK eq_refl (YOf fn KSint32) n 0 i eq_refl)) as H.
    match type of H with ends _ ?x _ => set (o := x) in * end. 
    destruct (item lbl KSint32 wire data i V0) as [[v' j]|er q| |]; cbn [ends fst snd] in *; auto.
    + destruct H as (z & -> & -> & _). cbn [bindo fst snd]. rewrite (store_sim lbl KSint32 _ _ _ (VInt z)); [|discriminate|cbn [ev]; apply var_here|intros _; apply var_here].
      apply (falls_var [("v", UV (VInt z))]). reflexivity.
    + destruct H as (v' & ->). cbn. eauto.
  - apply (via_sim n lbl KSint64 wire i YU64 [_; _]); try reflexivity. exists s64. split.
    + apply (temp_zig64 K "v" V0 HK eq_refl n 0 i).
    + intros j w. cbn [ev]. now rewrite var_here.
Qed.

Hypothesis Hstr : forall i s, ue_str env i s = if unsafe then match s with [] => VStr [] | _ => VRefS (base + i) s end else VStr s.
Hypothesis Hbytes : forall i s, ue_bytes env i s = if unsafe then VRefB (base + i) s else VBytes s.

Lemma unsafe_at E i z bs : index E = Some i -> zslice data i (i + z) = Some bs -> 0 < z ->
  forall v e, evl E v e = Some (VInt z) -> evl E v (XUnsafe e) = Some (VRefS (base + i) bs) /\ evl E v (XUnique e) = Some (VStr bs) /\ bs <> [].
Proof.
  intros Hi Zs Hz v e He. cbn [ev]. rewrite Hi, He, Zs. pose proof (bytes_ok_slice _ _ _ _ Bd Zs) as (_ & B1 & B2 & B3).
  destruct (zget_some i) as (b & ->); [lia|]. repeat split. intros ->. cbn in B1. lia.
Qed.
Lemma slice_nil i j bs : zslice data i j = Some bs -> j - i <= 0 -> bs = [].
Proof. intros H Hz. apply (bytes_ok_slice _ _ _ _ Bd) in H as (_ & H & H1 & _). destruct bs; [reflexivity|]. unfold zlen in H. cbn [List.length] in H. lia. Qed.

Lemma string_sim p n lbl wire i : 
  ends (item lbl KString wire data i V0) (ex n (ublock (itm p lbl KString)) (K i) V0) (falls K).
Proof.
  unfold u_item, fieldItem. cbn [classify]. rewrite ex_app.
  eapply ends_bind; [apply ends_lift, (len_u64_sim K "stringLen" "intStringLen" "postIndex" n i V0 HK); reflexivity|].
  intros [j post] _ (z & -> & Ep & B1 & B2). cbn [fst snd] in *. cbn [bindo].
  destruct (zslice data j post) as [bs|] eqn:Zs; [|exact Logic.I]. cbn [orpanic rbind].
  rewrite store_stored. cbn [orpanic rbind ends].
  set (K1 := fun j => ("postIndex", UV (VInt post)) :: ("intStringLen", UV (VInt z)) :: ("stringLen", UV (VInt z)) :: K j).
  assert (kinv K1) as HK1 by (unfold K1; repeat apply kpush; auto).
  assert (forall E e, evl E V0 e = Some (ue_str env j bs) -> (exists T0, E = T0 ++ K1 j /\ (T0 = [] \/ exists y, T0 = [("stringValue", y)])) ->
    falls K (stored lbl KString (ue_str env j bs), post) (ex n (ublock (u_store_var f lbl e "s" false false ++ [put_index "postIndex"])) E V0)) as Fin.
  { intros E e He (T0 & -> & HT0). rewrite ex_app.
    assert (classify KString <> CByt) as Nb by discriminate.
    destruct (store_var_sim lbl KString e "s" false false (T0 ++ K1 j) _ n Nb He) as (T & -> & HT). cbn [bindo].
    assert (kinv (fun j => T0 ++ K1 j)) as HK2 by (destruct HT0 as [->|(y & ->)]; [exact HK1|apply kpush; auto]).
    rewrite (put_sim (fun j => T0 ++ K1 j) T "s" "postIndex" n j post); auto.
    - exists (T ++ T0 ++ [("postIndex", UV (VInt post)); ("intStringLen", UV (VInt z)); ("stringLen", UV (VInt z))]). cbn [fst snd]. split.
      + unfold over. rewrite !forallb_app. destruct HT as [->|(y & ->)], HT0 as [->|(y' & ->)]; reflexivity.
      + rewrite <- !app_assoc. reflexivity.
    - destruct HT as [->|(y & ->)]; eauto.
    - destruct HT0 as [->|(y & ->)]; cbn [app]; [unfold K1; apply var_here|]. rewrite var_cons by reflexivity. apply var_here. }
  change (ex n (ublock ?x) (("postIndex", UV (VInt post)) :: ("intStringLen", UV (VInt z)) :: ("stringLen", UV (VInt z)) :: K j) V0) with (ex n (ublock x) (K1 j) V0).
  assert (index (K1 j) = Some j) as Ij by (unfold index; now rewrite (kvar K1 j HK1)).
  rewrite Ep in Zs.
  assert (forall z0 y, evl (("stringValue", z0) :: K1 j) V0 (XGt (XVar "intStringLen") (num 0)) = Some (zb (z >? 0)) /\
    uassign (("stringValue", z0) :: K1 j) "stringValue" y = Some (("stringValue", y) :: K1 j)) as Lk by (intros; split; reflexivity).
  assert (unsafe || unique fn = true -> exists e, (if unsafe then [UVar "stringValue" YStr;
                          UIf (XGt (XVar "intStringLen") (num 0)) (USet (LVar "stringValue") (XUnsafe (XVar "intStringLen"))) USkip]
          else if unique fn then [UVar "stringValue" YStr;
                          UIf (XGt (XVar "intStringLen") (num 0)) (USet (LVar "stringValue") (XUnique (XVar "intStringLen"))) USkip]
          else []) = [UVar "stringValue" YStr; UIf (XGt (XVar "intStringLen") (num 0)) (USet (LVar "stringValue") e) USkip] /\
          (0 < z -> evl (("stringValue", UV (VStr [])) :: K1 j) V0 e = Some (ue_str env j bs)) /\ (z <= 0 -> ue_str env j bs = VStr [])) as Un.
  { intros Hu. assert (0 < z -> forall e, e = XUnsafe (XVar "intStringLen") \/ e = XUnique (XVar "intStringLen") ->
       evl (("stringValue", UV (VStr [])) :: K1 j) V0 e = Some (match e with XUnsafe _ => VRefS (base + j) bs | _ => VStr bs end) /\ bs <> []) as Q.
    { intros Hz e He. destruct (unsafe_at (("stringValue", UV (VStr [])) :: K1 j) j z bs Ij Zs Hz V0 (XVar "intStringLen") eq_refl) as (Q1 & Q2 & Q3).
      destruct He as [-> | ->]; auto. }
    rewrite Hstr. destruct unsafe; [|destruct (unique fn); [|discriminate]]; eexists; (split; [reflexivity|]); split; intros Hz.
    - destruct (Q Hz _ (or_introl eq_refl)) as [-> Nb]. now destruct bs.
    - apply slice_nil in Zs as ->; [reflexivity|lia].
    - destruct (Q Hz _ (or_intror eq_refl)) as [-> Nb]. reflexivity.
    - apply slice_nil in Zs as ->; [reflexivity|lia]. }
  destruct (unsafe || unique fn) eqn:Hu.
  - destruct (Un eq_refl) as (e & -> & U1 & U2). rewrite ex_app, ex_cons. cbn [uexec zero_ty bindo]. rewrite ex_cons.
    destruct (Lk (UV (VStr [])) (UV (ue_str env j bs))) as [L1 L2].
    rewrite (ex_if _ _ _ _ _ _ (if z >? 0 then 1 else 0)) by exact L1. rewrite Z.gtb_ltb. destruct (Z.ltb_spec 0 z) as [Hz|Hz].
    + cbn [Z.eqb Pos.eqb uexec]. rewrite U1 by lia. cbn [uset uwrite]. rewrite L2. rewrite leave_same by reflexivity. cbn [bindo]. rewrite ex_nil. cbn [bindo].
      apply Fin; [reflexivity|]. eexists [_]. split; [reflexivity|eauto].
    + cbn [Z.eqb Pos.eqb uexec]. rewrite leave_same by reflexivity. cbn [bindo]. rewrite ex_nil. cbn [bindo].
      apply Fin; [cbn [ev]; rewrite var_here; now rewrite U2 by lia|]. eexists [_]. split; [reflexivity|eauto].
  - apply orb_false_iff in Hu as [Hu1 Hu2]. rewrite Hu1, Hu2. cbn [app]. apply Fin.
    + rewrite Hstr, Hu1. cbn [ev iNdEx]. rewrite (kvar K1 j HK1). unfold K1 at 1. rewrite var_here. rewrite <- Ep in Zs. now rewrite Zs.
    + exists []. split; auto.
Qed.

Lemma bytes_sim p n lbl wire i : 
  ends (item lbl KBytes wire data i V0) (ex n (ublock (itm p lbl KBytes)) (K i) V0) (falls K).
Proof.
  unfold u_item, fieldItem. cbn [classify]. rewrite ex_app.
  eapply ends_bind; [apply ends_lift, (len_int_sim K "byteLen" "postIndex" n i V0 HK); reflexivity|].
  intros [j post] _ (z & -> & Ep & B1 & B2). cbn [fst snd] in *. cbn [bindo].
  destruct (zslice data j post) as [bs|] eqn:Zs; [|exact Logic.I]. cbn [orpanic rbind].
  rewrite store_stored. cbn [orpanic rbind ends]. rewrite Hbytes.
  set (K1 := fun j => ("postIndex", UV (VInt post)) :: ("byteLen", UV (VInt z)) :: K j).
  assert (kinv K1) as HK1 by (unfold K1; repeat apply kpush; auto).
  change (ex n (ublock ?x) (("postIndex", UV (VInt post)) :: ("byteLen", UV (VInt z)) :: K j) V0) with (ex n (ublock x) (K1 j) V0).
  rewrite ex_app. pose proof (kvar K1 j HK1) as Vj. assert (var (K1 j) "postIndex" = Some (VInt post)) as Vp by apply var_here.
  assert (forall T x, (T = [] \/ exists y, T = [("v", y)]) -> falls K (x, post) (ex n (ublock [put_index "postIndex"]) (T ++ K1 j) x)) as Fin.
  { intros T x HT. rewrite (put_sim K1 T "v" "postIndex" n j post) by auto. exists (T ++ [("postIndex", UV (VInt post)); ("byteLen", UV (VInt z))]). cbn [fst snd]. split.
    - unfold over. rewrite forallb_app. destruct HT as [->|(y & ->)]; reflexivity.
    - rewrite <- app_assoc. reflexivity. }
  assert (forall v, evl (K1 j) v (XData iNdEx (XVar "postIndex")) = Some (VRefB (base + j) bs)) as Vd.
  { intros v. cbn [ev iNdEx]. now rewrite Vj, Vp, Zs. }
  assert (small data) as Sm' by exact Sm. unfold small in Sm'. pose proof (bytes_ok_slice _ _ _ _ Bd Zs) as (_ & Lb & _).
  assert (forall v, evl (K1 j) v (XMake (XSub (XVar "postIndex") iNdEx)) = Some (VBytes (repeat 0 (Z.to_nat z)))) as Vm.
  { intros v. cbn [ev iNdEx]. rewrite Vj, Vp. cbn [arith]. rewrite s64_id by lia. replace (post - j) with z by lia. destruct (Z.ltb_spec z 0); [lia|reflexivity]. }
  assert (zcopy (repeat 0 (Z.to_nat z)) 0 bs = Some bs) as Zc by (apply zcopy_all; rewrite zlen_repeat; lia).
  assert ((f_slot f < List.length (list_set s (f_slot f) VNil))%nat) as _ by (rewrite list_set_length; exact Hs).
  unfold stored. destruct lbl; destruct unsafe eqn:Un;
    match goal with
    | |- context [XRefill] =>
        rewrite ex_cons; cbn [uexec ev iNdEx]; cbn [get_slot]; rewrite Vj, Vp, Zs;
        set (nv := match bs with [] => if is_nil (slot s (f_slot f)) then VNil else VBytes [] | _ => VBytes bs end);
        assert ((match bs with [] => Some (if is_nil (slot s (f_slot f)) then VNil else VBytes []) | _ :: _ => Some (VBytes bs) end) = Some nv) as -> by (unfold nv; now destruct bs);
        cbn [uset uwrite set_slot bindo]; rewrite ex_cons;
        rewrite (ex_if _ _ _ _ _ _ (if is_nil nv then 1 else 0)) by (cbn [ev get_slot]; unfold slot; now rewrite nth_list_set_eq by exact Hs);
        assert (is_nil nv = true -> bs = []) as Nb by (unfold nv; destruct bs; [reflexivity|discriminate]);
        assert (is_nil nv = false -> nv = VBytes bs) as Nb2 by (unfold nv; destruct bs; [destruct (is_nil (slot s (f_slot f))); [discriminate|reflexivity]|reflexivity]);
        destruct (is_nil nv); cbn [Z.eqb Pos.eqb uexec ev uset uwrite set_slot];
        rewrite leave_same by reflexivity; cbn [bindo]; rewrite ex_nil; cbn [bindo];
        [rewrite list_set_twice, (Nb eq_refl)|rewrite (Nb2 eq_refl)]; apply (Fin []); auto
    | _ => idtac
    end.
  - rewrite ex_cons. cbn [uexec]. rewrite Vd. cbn [uset uwrite set_slot bindo]. rewrite ex_nil. cbn [bindo]. apply (Fin []). auto.
  - rewrite ex_cons. cbn [uexec]. rewrite Vd. cbn [uset uwrite set_slot bindo]. rewrite ex_nil. cbn [bindo]. apply (Fin []). auto.
  - rewrite ex_cons. cbn [uexec]. rewrite Vd. cbn [uset uwrite set_slot bindo]. rewrite ex_nil. cbn [bindo]. apply (Fin []). auto.
  - assert (evl (K1 j) V0 (XAppend (f_slot f) (XData iNdEx (XVar "postIndex"))) = Some (VList (vlist (slot s (f_slot f)) ++ [VRefB (base + j) bs]))) as Va.
    { specialize (Vd V0). cbn [ev get_slot] in Vd |- *. now rewrite Vd. }
    rewrite ex_cons. cbn [uexec]. rewrite Va. cbn [uset uwrite set_slot bindo]. rewrite ex_nil. cbn [bindo]. apply (Fin []). auto.
  - assert (evl (K1 j) V0 (XAppend (f_slot f) (XMake (XSub (XVar "postIndex") iNdEx))) = Some (VList (vlist (slot s (f_slot f)) ++ [VBytes (repeat 0 (Z.to_nat z))]))) as Va.
    { specialize (Vm V0). cbn [ev get_slot] in Vm |- *. now rewrite Vm. }
    rewrite ex_cons. cbn [uexec]. rewrite Va. cbn [uset uwrite set_slot bindo]. rewrite ex_cons. cbn [uexec uread get_slot ev iNdEx].
    rewrite Vj, Vp. rewrite slot_set_eq by exact Hs. rewrite last_of_app, Zs, Zc. cbn [uset uwrite get_slot]. rewrite slot_set_eq by exact Hs.
    rewrite set_last_app. cbn [set_slot bindo]. rewrite list_set_twice, ex_nil. cbn [bindo]. apply (Fin []). auto.
  - cbn [app]. rewrite ex_cons. cbn [uexec]. rewrite Vd. cbn [bindo]. rewrite ex_cons. cbn [uexec ev]. rewrite var_here. cbn [uset uwrite set_slot bindo].
    rewrite ex_nil. cbn [bindo]. apply (Fin [_]). eauto.
  - cbn [app]. rewrite ex_cons. cbn [uexec]. rewrite Vm. cbn [bindo]. rewrite ex_cons. cbn [uexec uread ev iNdEx]. rewrite var_here, !var_cons, Vj, Vp, Zs, Zc by reflexivity.
    cbn [uset uwrite uassign]. rewrite String.eqb_refl. cbn [bindo]. rewrite ex_cons. cbn [uexec ev]. rewrite var_here. cbn [uset uwrite set_slot bindo].
    rewrite ex_nil. cbn [bindo]. apply (Fin [_]). eauto.
Qed.

(** ** Messages *)
Hypothesis Hdp : forall m, dp m <> DOther -> md_foreign (md_of sc m) = false.
Hypothesis Hpool : forall m, pool m = md_pool (md_of sc m).
Hypothesis Halloc : forall i m, ue_alloc env i m = alloc i m.
Hypothesis Hroom : forall i m, md_pool (md_of sc m) = true -> room sc m (alloc i m).
Hypothesis Hnew : forall m, room sc m (new_msg (md_of sc m)).
Hypothesis Hcall : forall i m buf x, md_foreign (md_of sc m) = false -> bytes_ok buf = true -> zlen buf <= L -> room sc m x ->
  match rec i m buf x with
  | Ok y => callee i m buf x = Ok y
  | Err e _ => exists y, callee i m buf x = Err e y
  | _ => True
  end.

Lemma udecode_rel i m buf x : bytes_ok buf = true -> zlen buf <= L -> room sc m x ->
  match decodeMessage sc rec i m buf x with
  | Ok y => udecode sc callee (dp m) i m buf x = Ok y
  | Err e _ => exists y, udecode sc callee (dp m) i m buf x = Err e y
  | _ => True
  end.
Proof.
  intros Hb Hl R. unfold decodeMessage, udecode. destruct (md_foreign (md_of sc m)) eqn:Fm; [|now apply Hcall].
  assert (dp m = DOther) as -> by (destruct (dp m) eqn:D; auto; exfalso; pose proof (Hdp m) as Q; rewrite D in Q; rewrite Q in Fm by discriminate; discriminate).
  destruct x; auto; destruct (up_dec _ _ _); eauto.
Qed.

Lemma udecode_sim n E v pl m a b i post buf x : evl E v a = Some (VInt i) -> evl E v b = Some (VInt post) -> zslice data i post = Some buf ->
  pread E v pl = Some x -> (forall y, exists E' v', pwrite E v pl y = Some (E', v')) -> room sc m x ->
  match decodeMessage sc rec i m buf x with
  | Ok y => ex n (UDecode (dp m) pl m a b) E v = match pwrite E v pl y with Some (E', v') => UNext E' v' | None => UStuck end
  | Err e _ => exists v', ex n (UDecode (dp m) pl m a b) E v = URetn (Some e) v'
  | _ => True
  end.
Proof.
  intros Ha Hb Zs Hp Hw R. cbn [uexec]. rewrite Ha, Hb, Hp, Zs. pose proof (bytes_ok_slice _ _ _ _ Bd Zs) as (B1 & B2 & B3 & B4).
  pose proof (udecode_rel i m buf x B1 ltac:(lia) R) as H. destruct (decodeMessage sc rec i m buf x) as [y|e y| |]; auto.
  - now rewrite H.
  - destruct H as (y' & ->). destruct (Hw y') as (E' & v' & ->). eauto.
Qed.

Lemma message_sim p n lbl m wire i : md_pool md = p -> lbl <> LImplicit ->
  (forall x, In x (inner lbl fn (slot s (f_slot f))) -> room sc m x) ->
  (forall q x, lbl = LRepeated q -> In x (nth (f_slot f) h []) -> x <> VNil -> room sc m x) ->
  ends (item lbl (KMessage m) wire data i V0) (ex n (ublock (itm p lbl (KMessage m))) (K i) V0) (falls K).
Proof.
  intros Ep Nl Ri Rh. unfold u_item, fieldItem, u_message. cbn [classify]. unfold message_item. rewrite ex_app.
  eapply ends_bind; [apply ends_lift, (len_int_sim K "msglen" "postIndex" n i V0 HK); reflexivity|].
  intros [j post] _ (z & -> & Ez & B1 & B2). cbn [fst snd] in *. cbn [bindo].
  destruct (zslice data j post) as [buf|] eqn:Zs; [|exact Logic.I]. cbn [orpanic rbind]. rewrite Ep.
  set (K1 := fun j => ("postIndex", UV (VInt post)) :: ("msglen", UV (VInt z)) :: K j).
  assert (kinv K1) as HK1 by (unfold K1; repeat apply kpush; auto).
  change (ex n (ublock ?x) (("postIndex", UV (VInt post)) :: ("msglen", UV (VInt z)) :: K j) V0) with (ex n (ublock x) (K1 j) V0).
  rewrite ex_app. pose proof (kvar K1 j HK1) as Vj. assert (var (K1 j) "postIndex" = Some (VInt post)) as Vp by apply var_here.
  assert (forall x, falls K (x, post) (ex n (ublock [put_index "postIndex"]) (K1 j) x)) as Fin.
  { intros x. pose proof (put_sim K1 [] "v" "postIndex" n j post x HK1 (or_introl eq_refl) eq_refl eq_refl Vp) as Q. cbn [app] in Q. rewrite Q.
    exists [("postIndex", UV (VInt post)); ("msglen", UV (VInt z))]. split; reflexivity. }
  set (fresh := if p && md_pool (md_of sc m) then ue_alloc env j m else new_msg (md_of sc m)).
  assert (room sc m fresh) as Rf by (unfold fresh; destruct (p && md_pool (md_of sc m)) eqn:Pm; [rewrite Halloc; apply Hroom; now apply andb_true_iff in Pm|apply Hnew]).
  assert (forall v, evl (K1 j) v (if p && pool m then XPool fn m else XNew fn m) = Some fresh) as Vf.
  { intros v. unfold fresh. rewrite Hpool. destruct (p && md_pool (md_of sc m)); cbn [ev]; [|reflexivity]. unfold index. rewrite Vj. cbn [number]. now rewrite Halloc. }
  set (old := slot s (f_slot f)) in *.
  (* what a decode statement does, and what follows *)
  assert (forall pl x (put : val -> option val) E v, (forall y, exists v', put y = Some v' /\ pwrite E v pl y = Some (E, v')) -> E = K1 j ->
     pread E v pl = Some x -> room sc m x ->
     ends (do v' <- nest (decodeMessage sc rec j m buf x) put; Ok (v', post))
       (bindo (ex n (UDecode (dp m) pl m iNdEx (XVar "postIndex")) E v) (ex n (ublock [put_index "postIndex"]))) (falls K)) as Dec.
  { intros pl x put E v Hp -> Hr Rx. 
    assert (forall y, exists E' v', pwrite (K1 j) v pl y = Some (E', v')) as Hw by (intros y; destruct (Hp y) as (v' & _ & Q); eauto).
    pose proof (udecode_sim n (K1 j) v pl m iNdEx (XVar "postIndex") j post buf x Vj Vp Zs Hr Hw Rx) as H.
    destruct (decodeMessage sc rec j m buf x) as [y|e y| |]; cbn [nest]; try exact Logic.I.
    - destruct (Hp y) as (v' & Q1 & Q2). rewrite H, Q1, Q2. cbn [rbind bindo ends]. apply Fin.
    - destruct (Hp y) as (v' & Q1 & Q2). destruct H as (v1 & ->). rewrite Q1. cbn [rbind bindo ends]. eauto. }
  destruct lbl; try congruence.
  - (* optional *)
    rewrite ex_cons. rewrite (ex_if _ _ _ _ _ _ (if is_nil old then 1 else 0)) by reflexivity.
    assert (exists v1, uleave (K1 j) (if (if is_nil old then 1 else 0) =? 0 then ex n USkip (K1 j) V0 else ex n (USet (LSlot (f_slot f)) (if p && pool m then XPool fn m else XNew fn m)) (K1 j) V0) = UNext (K1 j) v1
      /\ get_slot v1 (f_slot f) = Some (match old with VNil => fresh | _ => old end) /\ forall y, set_slot v1 (f_slot f) y = set_slot V0 (f_slot f) y) as (v1 & -> & G1 & G2).
    { destruct (is_nil old) eqn:Io; cbn [Z.eqb Pos.eqb].
      - cbn [uexec]. rewrite Vf. cbn [uset uwrite set_slot]. rewrite leave_same by reflexivity. eexists. split; [reflexivity|]. cbn [get_slot set_slot].
        rewrite slot_set_eq by exact Hs. destruct old; try discriminate. split; [reflexivity|]. intros y. now rewrite list_set_twice.
      - cbn [uexec]. rewrite leave_same by reflexivity. eexists. split; [reflexivity|]. split; [|reflexivity]. cbn [get_slot]. fold old. destruct old; try discriminate; reflexivity. }
    cbn [bindo]. rewrite ex_cons.
    assert (forall o k1, bindo (bindo o (ex n (ublock []))) k1 = bindo o k1) as Bn by (intros [] k1; reflexivity). rewrite Bn.
    apply Dec; auto.
    + intros y. cbn [pwrite uwrite]. rewrite G2. cbn [set_slot]. eauto.
    + destruct old eqn:Eo; auto; apply Ri; cbn [inner]; now left.
  - (* required *)
    rewrite ex_cons. rewrite (ex_if _ _ _ _ _ _ (if is_nil old then 1 else 0)) by reflexivity.
    assert (exists v1, uleave (K1 j) (if (if is_nil old then 1 else 0) =? 0 then ex n USkip (K1 j) V0 else ex n (USet (LSlot (f_slot f)) (if p && pool m then XPool fn m else XNew fn m)) (K1 j) V0) = UNext (K1 j) v1
      /\ get_slot v1 (f_slot f) = Some (match old with VNil => fresh | _ => old end) /\ forall y, set_slot v1 (f_slot f) y = set_slot V0 (f_slot f) y) as (v1 & -> & G1 & G2).
    { destruct (is_nil old) eqn:Io; cbn [Z.eqb Pos.eqb].
      - cbn [uexec]. rewrite Vf. cbn [uset uwrite set_slot]. rewrite leave_same by reflexivity. eexists. split; [reflexivity|]. cbn [get_slot set_slot].
        rewrite slot_set_eq by exact Hs. destruct old; try discriminate. split; [reflexivity|]. intros y. now rewrite list_set_twice.
      - cbn [uexec]. rewrite leave_same by reflexivity. eexists. split; [reflexivity|]. split; [|reflexivity]. cbn [get_slot]. fold old. destruct old; try discriminate; reflexivity. }
    cbn [bindo]. rewrite ex_cons.
    assert (forall o k1, bindo (bindo o (ex n (ublock []))) k1 = bindo o k1) as Bn by (intros [] k1; reflexivity). rewrite Bn.
    apply Dec; auto.
    + intros y. cbn [pwrite uwrite]. rewrite G2. cbn [set_slot]. eauto.
    + destruct old eqn:Eo; auto; apply Ri; cbn [inner]; now left.
  - (* repeated *)
    rewrite ex_app. destruct (list_grow sc md m h (f_slot f)) as [target h'] eqn:LG.
    assert (forall pre v1, ex n (ublock pre) (K1 j) V0 = UNext (K1 j) v1 -> v1 = VMsg (list_set s (f_slot f) (VList (vlist old ++ [target]))) u h' -> room sc m target ->
      ends (do v' <- nest (decodeMessage sc rec j m buf target) (fun x' => Some (VMsg (list_set s (f_slot f) (VList (vlist old ++ [x']))) u h')); Ok (v', post))
        (bindo (bindo (ex n (ublock pre) (K1 j) V0) (ex n (ublock [UDecode (dp m) (PLast (f_slot f)) m iNdEx (XVar "postIndex")]))) (ex n (ublock [put_index "postIndex"]))) (falls K)) as Rep.
    { intros pre v1 -> -> Rt. cbn [bindo]. rewrite ex_cons.
      assert (forall o k1, bindo (bindo o (ex n (ublock []))) k1 = bindo o k1) as Bn by (intros [] k1; reflexivity). rewrite Bn.
      apply Dec; auto.
      - intros y. eexists. split; [reflexivity|]. cbn [pwrite uwrite get_slot]. rewrite slot_set_eq by exact Hs. rewrite set_last_app. cbn [set_slot]. now rewrite list_set_twice.
      - cbn [pread get_slot]. rewrite slot_set_eq by exact Hs. apply last_of_app. }
    assert (forall x, evl (K1 j) V0 (XAppend (f_slot f) (XNew fn m)) = Some x -> x = VList (vlist old ++ [new_msg (md_of sc m)])) as Va.
    { intros x. cbn [ev get_slot]. fold old. now intros [= <-]. }
    unfold list_grow in LG. rewrite Ep in LG. destruct p.
    + rewrite (surjective_pairing (target, h')) in LG. 
      eapply Rep; [| |].
      * rewrite ex_cons. rewrite (ex_if _ _ _ _ _ _ (if zlen (vlist old) =? zlen (vlist old) + zlen (nth (f_slot f) h []) + Z.max 0 (spare j (f_slot f)) then 1 else 0)).
        2:{ cbn [ev get_slot hidden]. unfold index. rewrite Vj. reflexivity. }
        instantiate (1 := VMsg (list_set s (f_slot f) (VList (vlist old ++ [target]))) u h').
        destruct (nth (f_slot f) h []) as [|x rest] eqn:Hn.
        -- injection LG as <- <-. destruct (zlen (vlist old) =? _) eqn:Ecap; cbn [Z.eqb Pos.eqb].
           ++ cbn [uexec ev get_slot uset uwrite set_slot]. rewrite leave_same by reflexivity. cbn [bindo]. apply ex_nil.
           ++ rewrite ex_cons. cbn [uexec]. rewrite Hn. cbn [bindo]. rewrite ex_cons.
              rewrite (ex_if _ _ _ _ _ _ 1).
              2:{ cbn [ev get_slot]. rewrite slot_set_eq by exact Hs. now rewrite last_of_app. }
              cbn [Z.eqb Pos.eqb uexec ev uset uwrite get_slot]. rewrite slot_set_eq by exact Hs. rewrite set_last_app. cbn [set_slot]. rewrite list_set_twice.
              rewrite leave_same by reflexivity. cbn [bindo]. rewrite ex_nil. rewrite leave_same by reflexivity. cbn [bindo]. apply ex_nil.
        -- injection LG as <- <-.
           replace (zlen (vlist old) =? zlen (vlist old) + zlen (x :: rest) + Z.max 0 (spare j (f_slot f))) with false by (symmetry; apply Z.eqb_neq; unfold zlen; cbn [List.length]; lia).
           cbn [Z.eqb Pos.eqb]. rewrite ex_cons. cbn [uexec]. rewrite Hn. cbn [bindo]. rewrite ex_cons.
           rewrite (ex_if _ _ _ _ _ _ (if is_nil x then 1 else 0)).
           2:{ cbn [ev get_slot]. rewrite slot_set_eq by exact Hs. now rewrite last_of_app. }
           destruct (is_nil x) eqn:Ix; cbn [Z.eqb Pos.eqb].
           ++ cbn [uexec ev uset uwrite get_slot]. rewrite slot_set_eq by exact Hs. rewrite set_last_app. cbn [set_slot]. rewrite list_set_twice.
              rewrite leave_same by reflexivity. cbn [bindo]. rewrite ex_nil. rewrite leave_same by reflexivity. cbn [bindo]. destruct x; try discriminate. apply ex_nil.
           ++ cbn [uexec]. rewrite leave_same by reflexivity. cbn [bindo]. rewrite ex_nil. rewrite leave_same by reflexivity. cbn [bindo]. destruct x; try discriminate; apply ex_nil.
      * reflexivity.
      * destruct (nth (f_slot f) h []) as [|x rest] eqn:Hn; injection LG as <- <-; [apply Hnew|].
        destruct x eqn:Ex; try apply Hnew; (eapply Rh; [reflexivity|now left|discriminate]).
    + injection LG as <- <-. eapply Rep; [|reflexivity|apply Hnew].
      rewrite ex_cons. cbn [uexec ev get_slot uset uwrite set_slot bindo]. apply ex_nil.
  - (* oneof *)
    rewrite ex_cons. 
    assert (forall o k1, bindo (bindo o (ex n (ublock []))) k1 = bindo o k1) as Bn by (intros [] k1; reflexivity). rewrite Bn.
    assert (ends (do v' <- (do x' <- drop_state V0 (decodeMessage sc rec j m buf fresh); orpanic (set_slot V0 (f_slot f) (VOneof fn x'))); Ok (v', post))
      (bindo (uleave (K1 j) (ex n (ublock [UDef "v" (if p && pool m then XPool fn m else XNew fn m); UDecode (dp m) (PVar "v") m iNdEx (XVar "postIndex"); USet (LSlot (f_slot f)) (XWrap fn (XVar "v"))]) (K1 j) V0)) (ex n (ublock [put_index "postIndex"]))) (falls K)) as New.
    { rewrite ex_cons. cbn [uexec]. rewrite Vf. cbn [bindo]. rewrite ex_cons.
      pose proof (udecode_sim n (("v", UV fresh) :: K1 j) V0 (PVar "v") m iNdEx (XVar "postIndex") j post buf fresh) as H.
      assert (evl (("v", UV fresh) :: K1 j) V0 iNdEx = Some (VInt j)) as A1 by (cbn [ev iNdEx]; now rewrite var_cons by reflexivity).
      assert (forall y, pwrite (("v", UV fresh) :: K1 j) V0 (PVar "v") y = Some (("v", UV y) :: K1 j, V0)) as A2 by (intros; reflexivity).
      specialize (H A1 eq_refl Zs (var_here _ _ _)). 
      assert (forall y, exists E' v', pwrite (("v", UV fresh) :: K1 j) V0 (PVar "v") y = Some (E', v')) as A3 by (intros; eauto). specialize (H A3 Rf).
      destruct (decodeMessage sc rec j m buf fresh) as [y|e y| |]; cbn [drop_state rbind]; try exact Logic.I.
      - rewrite H, A2. cbn [bindo]. rewrite ex_cons. cbn [uexec ev]. rewrite var_here. cbn [uset uwrite set_slot bindo]. rewrite ex_nil.
        rewrite leave_cons by reflexivity. rewrite leave_same by reflexivity. cbn [orpanic rbind bindo ends]. apply Fin.
      - destruct H as (v' & ->). cbn. eauto. }
    cbn [uexec get_slot]. fold old. destruct old eqn:Eo; try exact New.
    destruct (num =? fn) eqn:En; [|exact New].
    assert (pread (K1 j) V0 (PIn (f_slot f) fn) = Some v) as Pr by (cbn [pread get_slot]; fold old; now rewrite Eo, En).
    assert (room sc m v) as Rv by (apply Ri; cbn [inner]; rewrite En; now left).
    pose proof (Dec (PIn (f_slot f) fn) v (fun x' => set_slot V0 (f_slot f) (VOneof fn x')) (K1 j) V0) as H.
    specialize (H (fun y => ex_intro _ _ (conj eq_refl eq_refl)) eq_refl Pr Rv).
    match goal with |- ends _ (bindo (uleave _ ?o) _) _ => change o with (ex n (UDecode (dp m) (PIn (f_slot f) fn) m iNdEx (XVar "postIndex")) (K1 j) V0) end.
    match goal with |- ends ?r _ _ => match type of H with ends ?r' _ _ => change r with r' end end.
    enough (uleave (K1 j) (ex n (UDecode (dp m) (PIn (f_slot f) fn) m iNdEx (XVar "postIndex")) (K1 j) V0) = ex n (UDecode (dp m) (PIn (f_slot f) fn) m iNdEx (XVar "postIndex")) (K1 j) V0) as -> by exact H.
    cbn [uexec]. rewrite Pr. cbn [ev iNdEx]. rewrite Vj, Vp, Zs. destruct (udecode _ _ _ _ _ _ _); try reflexivity. cbn [pwrite uwrite set_slot]. now rewrite leave_same.
Qed.

(** ** Groups *)
Lemma wire_type z : 0 <= Z.land z 7 < 8.
Proof. change 7 with (Z.ones 3). rewrite Z.land_ones by lia. apply Z.mod_pos_bound. lia. Qed.
Lemma add_index K2 T n i z mv e : kinv K2 -> forallb (fun p => negb (String.eqb "iNdEx" (fst p))) T = true -> evl (T ++ K2 i) mv e = Some (VInt z) ->
  ex n (UAdd "iNdEx" e) (T ++ K2 i) mv = UNext (T ++ K2 (s64 (i + z))) mv.
Proof.
  intros HK2 HT He. cbn [uexec]. rewrite He.
  assert (var (T ++ K2 i) "iNdEx" = Some (VInt i)) as ->.
  { clear He. induction T as [|[x y] T IH]; cbn [app]; [now apply kvar|]. cbn [forallb fst] in HT. apply andb_true_iff in HT as [H1 H2]. apply negb_true_iff in H1. rewrite var_cons by assumption. auto. }
  cbn [arith uset uwrite].
  assert (uassign (T ++ K2 i) "iNdEx" (UV (VInt (s64 (i + z)))) = Some (T ++ K2 (s64 (i + z)))) as ->; [|reflexivity].
  clear He. induction T as [|[x y] T IH]; cbn [app]; [now apply (k_assign K2)|]. cbn [forallb fst] in HT. apply andb_true_iff in HT as [H1 H2]. apply negb_true_iff in H1. cbn [uassign]. rewrite H1. now rewrite IH.
Qed.

Lemma group_sim p n lbl m wire i : (forall j, var (K j) "wire" = Some (VInt wire)) -> Z.land wire 7 <> 4 ->
  ends (item lbl (KGroup m) wire data i V0) (ex n (ublock (itm p lbl (KGroup m))) (K i) V0) (falls K).
Proof.
  intros Hw Nw. unfold u_item, fieldItem, u_group. cbn [classify]. rewrite ex_cons. cbn [uexec]. cbn [ev iNdEx]. rewrite (kvar K i HK). cbn [bindo].
  rewrite ex_cons. cbn [uexec].
  set (K1 := fun j => ("groupStart", UV (VInt i)) :: K j). change (("groupStart", UV (VInt i)) :: K i) with (K1 i).
  assert (kinv K1) as HK1 by (unfold K1; apply kpush; auto).
  assert (forall o, ends (group_loop sc rec (S (List.length data)) f m wire data i i V0) o (fun _ _ => False) -> ends (group_loop sc rec (S (List.length data)) f m wire data i i V0) (bindo o (ex n (ublock []))) (falls K)) as Fin.
  { intros o H. destruct (group_loop _ _ _ _ _ _ _ _ _ _) as [[]|e q| |]; cbn [ends] in *; auto; [contradiction|]. destruct H as (v & ->). cbn. eauto. }
  apply Fin. clear Fin. generalize i at 2 3. pose proof Rlen as R. revert R. generalize (S (List.length data)) as fuel. generalize rounds at 1 2 as k.
  intros k fuel. revert k. induction fuel as [|fuel IH]; intros k Hk i0; [exact Logic.I|]. destruct k as [|k]; [lia|].
  cbn [group_loop uloop]. cbn [app]. rewrite ex_cons. cbn [uexec ev iNdEx]. rewrite (kvar K1 i0 HK1). cbn [bindo]. rewrite ex_cons. cbn [uexec zero_ty bindo]. rewrite ex_cons.
  set (K2 := fun j => ("maybeGroupEnd", UV (VInt i0)) :: K1 j). assert (kinv K2) as HK2 by (unfold K2; apply kpush; auto).
  pose proof (varint_sim (LVar "groupFieldWire") YU64 _ n i0 0 (lpush K2 "groupFieldWire" V0 HK2 eq_refl)) as H. cbn [fst snd] in H. change (conv YU64) with u64 in H.
  match type of H with ends _ ?x _ => set (o := x) in * end.
  match goal with |- context [bindo ?x _] => change x with o end. clearbody o.
  destruct (decodeVarint u64 0 data i0) as [[gw j]|e []| |]; cbn [ends fst snd lift rbind] in *; auto.
  2:{ destruct H as (v & ->). cbn. eauto. }
  rewrite H. cbn [bindo]. rewrite ex_cons. cbn [uexec ev].
  assert (var (("groupFieldWire", UV (VInt gw)) :: K2 j) "wire" = Some (VInt wire)) as -> by (unfold K2, K1; rewrite !var_cons by reflexivity; apply Hw).
  cbn [arith conv]. pose proof (wire_type wire) as WT. rewrite s64_id by lia. cbn [bindo]. rewrite ex_cons.
  rewrite (ex_if _ _ _ _ _ _ 0).
  2:{ cbn [ev num]. rewrite var_here. cbn [rel]. unfold zb. destruct (Z.eqb_spec (Z.land wire 7) 4); [contradiction|reflexivity]. }
  cbn [Z.eqb uexec]. rewrite leave_same by reflexivity. cbn [bindo].
  destruct (Z.eqb_spec (Z.land wire 7) 4); [contradiction|].
  rewrite ex_app.
  set (K3 := fun j => ("groupWireType", UV (VInt (Z.land wire 7))) :: ("groupFieldWire", UV (VInt gw)) :: K2 j). assert (kinv K3) as HK3 by (unfold K3; repeat apply kpush; auto).
  pose proof (skip_sim V0 K3 None 0 n j V0 HK3 Logic.I) as HS.
  match type of HS with ends _ ?x _ => set (o2 := x) in * end.
  match goal with |- context [bindo ?x _] => change x with o2 end. clearbody o2.
  destruct (zslice data j L) as [rest|]; [|exact Logic.I]. cbn [orpanic rbind] in *.
  destruct (Skip rest) as [sk|e []| |]; cbn [lift rbind ends] in *; auto.
  2:{ destruct HS as (v & ->). cbn. eauto. }
  destruct ((sk <? 0) || (s64 (j + sk) <? 0)); cbn [ends] in *.
  { destruct HS as (v & ->). cbn. eauto. }
  rewrite HS. cbn [bindo]. rewrite ex_cons.
  change (("err", UE None) :: ("skippy", UV (VInt sk)) :: K3 j) with ([("err", UE None); ("skippy", UV (VInt sk))] ++ K3 j).
  rewrite (add_index K3 [("err", UE None); ("skippy", UV (VInt sk))] n j sk V0 (XVar "skippy") HK3 eq_refl eq_refl). cbn [bindo]. rewrite ex_nil.
  change ([("err", UE None); ("skippy", UV (VInt sk))] ++ K3 (s64 (j + sk))) with ([("err", UE None); ("skippy", UV (VInt sk)); ("groupWireType", UV (VInt (Z.land wire 7))); ("groupFieldWire", UV (VInt gw)); ("maybeGroupEnd", UV (VInt i0))] ++ K1 (s64 (j + sk))).
  rewrite leave_app by apply (k_len K1 HK1). apply IH. lia.
Qed.

(** ** Maps *)
Section MapField.
Variables (x : string) (G : val -> Z -> uenvt) (mv : val).
Hypothesis Hx : x = "mapkey" \/ x = "mapvalue".
Hypothesis HG : forall c, kinv (G c).
Hypothesis Gx : forall c i, var (G c i) x = Some c.
Hypothesis Ga : forall c i c', uassign (G c i) x (UV c') = Some (G c' i).

Lemma linv_map : linv (LVar x) (fun i a => (G (VInt a) i, mv)).
Proof.
  assert (String.eqb x "b" = false /\ String.eqb x "shift" = false) as [N1 N2] by (destruct Hx as [-> | ->]; auto).
  constructor; intros; cbn [fst snd].
  - apply (k_index _ (HG _)).
  - apply (k_l _ (HG _)).
  - apply (k_assign _ (HG _)).
  - reflexivity.
  - cbn [uread]. rewrite !var_cons by assumption. apply Gx.
  - cbn [uwrite uassign]. rewrite N1, N2, Ga. reflexivity.
  - cbn [uwrite]. now rewrite Ga.
  - transitivity (List.length (G (VInt a) j)); [apply k_len, HG|]. symmetry. eapply assign_length. apply Ga.
Qed.

Definition mfalls (r : val * Z) (o : uout) : Prop := exists T, o = UNext (T ++ G (fst r) (snd r)) mv.

(** The variable is set, below others. *)
Lemma set_map T e c c' i n : forallb (fun p => negb (String.eqb x (fst p))) T = true -> evl (T ++ G c i) mv e = Some c' ->
  ex n (USet (LVar x) e) (T ++ G c i) mv = UNext (T ++ G c' i) mv.
Proof.
  intros HT He. cbn [uexec]. rewrite He. cbn [uset uwrite].
  assert (uassign (T ++ G c i) x (UV c') = Some (T ++ G c' i)) as ->; [|reflexivity].
  clear He. induction T as [|[y w] T IH]; cbn [app]; [apply Ga|]. cbn [forallb fst] in HT. apply andb_true_iff in HT as [H1 H2]. apply negb_true_iff in H1. cbn [uassign]. rewrite H1. now rewrite IH.
Qed.
Lemma put_map T c i n q post : forallb (fun p => negb (String.eqb "iNdEx" (fst p))) T = true -> var (T ++ G c i) post = Some (VInt q) ->
  ex n (put_index post) (T ++ G c i) mv = UNext (T ++ G c q) mv.
Proof.
  intros HT He. unfold put_index. cbn [uexec ev]. rewrite He. cbn [uset uwrite].
  assert (uassign (T ++ G c i) "iNdEx" (UV (VInt q)) = Some (T ++ G c q)) as ->; [|reflexivity].
  clear He. induction T as [|[y w] T IH]; cbn [app]; [apply (k_assign _ (HG c))|]. cbn [forallb fst] in HT. apply andb_true_iff in HT as [H1 H2]. apply negb_true_iff in H1. cbn [uassign]. rewrite H1. now rewrite IH.
Qed.

Lemma map_num k cur i acc : is_num k = true -> cur = VInt acc -> forall o,
  ends (decodeNumber k acc data i) o (fun r o => exists T, o = UNext (T ++ G (VInt (fst r)) (snd r)) mv) ->
  ends (mapField sc rec env k cur data i) o mfalls.
Proof.
  intros N -> o H. assert (mapField sc rec env k (VInt acc) data i = do r <- decodeNumber k acc data i; Ok (VInt (fst r), snd r)) as -> by (destruct k; try discriminate; reflexivity).
  apply ends_map. eapply ends_weaken; [exact H|]. intros [z j] _ (T & ->). exists T. reflexivity.
Qed.

(** A number read into a variable [t], then assigned. *)
Lemma map_temp k n cur i acc y t dec e : is_num k = true -> cur = VInt acc -> zero_ty y = VInt 0 -> String.eqb x t = false ->
  (exists g, ends (decodeNumber k acc data i) (ex n (ublock dec) ((t, UV (VInt 0)) :: G cur i) mv)
       (fun r o => exists w, fst r = g w /\ o = UNext ((t, UV (VInt w)) :: G cur (snd r)) mv) /\
     forall j w, evl ((t, UV (VInt w)) :: G cur j) mv e = Some (VInt (g w))) ->
  ends (mapField sc rec env k cur data i) (ex n (ublock (UVar t y :: dec ++ [USet (LVar x) e])) (G cur i) mv) mfalls.
Proof.
  intros N Ec Z0 Nt (g & D & He). eapply map_num; eauto. rewrite ex_cons. cbn [uexec]. rewrite Z0. cbn [bindo]. rewrite ex_app.
  match type of D with ends _ ?q _ => set (o := q) in * end. clearbody o.
  destruct (decodeNumber k acc data i) as [[z j]|er []| |]; cbn [ends fst snd] in *; auto.
  - destruct D as (w & Ew & ->). cbn [bindo]. rewrite ex_cons.
    change ((t, UV (VInt w)) :: G cur j) with ([(t, UV (VInt w))] ++ G cur j). rewrite (set_map [(t, UV (VInt w))] e cur (VInt (g w))); [|cbn [forallb fst]; now rewrite Nt|apply He].
    cbn [bindo]. rewrite ex_nil, <- Ew. eauto.
  - destruct D as (v & ->). cbn. eauto.
Qed.

Lemma s32_twice z : s32 (s32 z) = s32 z.
Proof. apply s32_id, s32_range. Qed.

Lemma mapField_sim k un n cur i : (is_num k = true -> exists a, cur = VInt a) ->
  ends (mapField sc rec env k cur data i) (ex n (ublock (u_mapField dp unsafe fn x k un)) (G cur i) mv) mfalls.
Proof.
  intros Hc. destruct (direct k) eqn:D.
  { assert (is_num k = true) as N by (destruct k; auto; discriminate). destruct (Hc N) as (a & ->).
    eapply map_num; eauto. pose proof (dec_sim fn k (LVar x) _ n i a linv_map D) as H. cbn [fst snd] in H.
    assert (u_mapField dp unsafe fn x k un = u_dec fn k (LVar x)) as -> by (destruct k; try discriminate; reflexivity).
    eapply ends_weaken; [exact H|]. intros [z j] _ ->. exists []. reflexivity. }
  assert (avoids (x ++ "temp") = true /\ String.eqb x (x ++ "temp") = false) as [At Nt] by (destruct Hx as [-> | ->]; split; reflexivity).
  destruct k; try discriminate; unfold u_mapField.
  - destruct (Hc eq_refl) as (a & Ec). eapply map_temp; eauto; try reflexivity. exists (fun w => w). split.
    + eapply ends_weaken; [apply (temp_fixed (G cur) _ mv (HG _) At KDouble 8 YU64 n a i); [reflexivity|intros; now apply u64_id]|]. intros [z j] _ ->. eauto.
    + intros j w. cbn [ev]. now rewrite var_here.
  - destruct (Hc eq_refl) as (a & Ec). eapply map_temp; eauto; try reflexivity. exists (fun w => w). split.
    + eapply ends_weaken; [apply (temp_fixed (G cur) _ mv (HG _) At KFloat 4 YU32 n a i); [reflexivity|intros; now apply u32_id]|]. intros [z j] _ ->. eauto.
    + intros j w. cbn [ev]. now rewrite var_here.
  - destruct (Hc eq_refl) as (a & Ec).
    apply (map_temp KBool n cur i a YInt (x ++ "temp") [u_varint (LVar (x ++ "temp")) YInt]); auto. exists (fun w => if w =? 0 then 0 else 1). split.
    + rewrite ex_cons. pose proof (temp_bool (G cur) _ mv (HG _) At n a i) as H. destruct (decodeNumber _ _ _ _) as [[z j]|e []| |]; cbn [ends fst snd] in *; auto.
      * destruct H as (w & Ew & ->). cbn [bindo]. rewrite ex_nil. eauto.
      * destruct H as (v & ->). cbn. eauto.
    + intros j w. cbn [ev num]. rewrite var_here. cbn [rel]. unfold zb. destruct (w =? 0); reflexivity.
  - (* string *)
    unfold mapField. cbn [classify]. rewrite ex_app.
    eapply ends_bind; [apply (len_u64_sim (G cur) _ _ _ n i mv (HG _)); destruct Hx as [-> | ->]; reflexivity|].
    intros [j post] _ (z & -> & Ep & B1 & B2). cbn [fst snd] in *. cbn [bindo].
    destruct (zslice data j post) as [bs|] eqn:Zs; [|exact Logic.I]. cbn [orpanic rbind ends].
    set (T := [(("postStringIndex" ++ x)%string, UV (VInt post)); (("intStringLen" ++ x)%string, UV (VInt z)); (("stringLen" ++ x)%string, UV (VInt z))]).
    match goal with |- mfalls _ (ex n _ ?E mv) => change E with (T ++ G cur j) end.
    assert (forallb (fun p => negb (String.eqb x (fst p))) T = true /\ forallb (fun p => negb (String.eqb "iNdEx" (fst p))) T = true) as [HT1 HT2] by (destruct Hx as [-> | ->]; split; reflexivity).
    assert (var (T ++ G cur j) ("intStringLen" ++ x) = Some (VInt z)) as Vl by (destruct Hx as [-> | ->]; reflexivity).
    assert (var (T ++ G cur j) ("postStringIndex" ++ x) = Some (VInt post)) as Vp by (destruct Hx as [-> | ->]; reflexivity).
    assert (var (T ++ G cur j) "iNdEx" = Some (VInt j)) as Vj by (unfold T; cbn [app]; rewrite !var_cons by (destruct Hx as [-> | ->]; reflexivity); now apply kvar).
    assert (index (T ++ G cur j) = Some j) as Ij by (unfold index; now rewrite Vj).
    assert (ex n (ublock (u_string unsafe x ("intStringLen" ++ x) ("postStringIndex" ++ x) un)) (T ++ G cur j) mv = UNext (T ++ G (ue_str env j bs) j) mv) as Q.
    { rewrite Hstr. unfold u_string. 
      assert (forall e, (0 < z -> evl (T ++ G cur j) mv e = Some (ue_str env j bs)) -> (z <= 0 -> ue_str env j bs = VStr []) ->
        ex n (ublock [UIf (XEq (XVar ("intStringLen" ++ x)) (num 0)) (USet (LVar x) XEmpty) (USet (LVar x) e)]) (T ++ G cur j) mv = UNext (T ++ G (ue_str env j bs) j) mv) as W.
      { intros e He1 He2. rewrite ex_cons. rewrite (ex_if _ _ _ _ _ _ (if z =? 0 then 1 else 0)).
        2:{ cbn [ev num]. now rewrite Vl. }
        destruct (Z.eqb_spec z 0) as [Z0|Z0]; cbn [Z.eqb Pos.eqb].
        - rewrite (set_map T XEmpty cur (ue_str env j bs)); [|exact HT1|rewrite He2 by lia; reflexivity]. rewrite leave_same; [cbn [bindo]; apply ex_nil|]. rewrite !app_length. f_equal. eapply assign_length. apply Ga.
        - rewrite (set_map T e cur (ue_str env j bs)); [|exact HT1|apply He1; lia]. rewrite leave_same; [cbn [bindo]; apply ex_nil|]. rewrite !app_length. f_equal. eapply assign_length. apply Ga. }
      rewrite Ep in Zs.
      assert (0 < z -> evl (T ++ G cur j) mv (XUnsafe (XVar ("intStringLen" ++ x))) = Some (VRefS (base + j) bs) /\ evl (T ++ G cur j) mv (XUnique (XVar ("intStringLen" ++ x))) = Some (VStr bs) /\ bs <> []) as U.
      { intros Hz. apply (unsafe_at (T ++ G cur j) j z bs Ij Zs Hz mv). cbn [ev]. exact Vl. }
      assert (z <= 0 -> bs = []) as Zn by (intros; eapply slice_nil; [exact Zs|lia]).
      rewrite Hstr in W. destruct unsafe; [|destruct un].
      - apply W.
        + intros Hz. destruct (U Hz) as (U1 & _ & U3). rewrite U1. now destruct bs.
        + intros Hz. now rewrite Zn.
      - apply W.
        + intros Hz. apply U. exact Hz.
        + intros Hz. now rewrite Zn.
      - rewrite ex_cons. rewrite (set_map T _ cur (VStr bs)); [cbn [bindo]; apply ex_nil|exact HT1|].
        cbn [ev iNdEx]. rewrite Vj, Vp. rewrite <- Ep in Zs. now rewrite Zs. }
    rewrite ex_app, Q. cbn [bindo]. rewrite ex_cons.
    change (USet (LVar "iNdEx") (XVar ("postStringIndex" ++ x))) with (put_index ("postStringIndex" ++ x)).
    rewrite (put_map T _ j n post); [cbn [bindo]; rewrite ex_nil; exists T; reflexivity|exact HT2|]. destruct Hx as [-> | ->]; reflexivity.
  - (* group *) exists []. reflexivity.
  - (* message *)
    unfold mapField. cbn [classify]. rewrite ex_app.
    eapply ends_bind; [apply (len_int_sim (G cur) _ _ n i mv (HG _)); reflexivity|].
    intros [j post] _ (z & -> & Ep & B1 & B2). cbn [fst snd] in *. cbn [bindo].
    destruct (zslice data j post) as [bs|] eqn:Zs; [|exact Logic.I]. cbn [orpanic rbind].
    set (T := [("postmsgIndex", UV (VInt post)); ("mapmsglen", UV (VInt z))]).
    match goal with |- ends _ (ex n _ ?E mv) _ => change E with (T ++ G cur j) end.
    assert (forallb (fun p => negb (String.eqb x (fst p))) T = true /\ forallb (fun p => negb (String.eqb "iNdEx" (fst p))) T = true) as [HT1 HT2] by (destruct Hx as [-> | ->]; split; reflexivity).
    rewrite ex_cons. rewrite (set_map T _ cur (new_msg (md_of sc m))); [|exact HT1|reflexivity]. cbn [bindo]. rewrite ex_cons.
    assert (forall c, var (T ++ G c j) x = Some c) as Vx by (intros c; unfold T; cbn [app]; rewrite !var_cons by (destruct Hx as [-> | ->]; reflexivity); apply Gx).
    assert (forall c c', uassign (T ++ G c j) x (UV c') = Some (T ++ G c' j)) as Va by (intros c c'; unfold T; cbn [app uassign]; destruct Hx as [-> | ->]; cbn [String.eqb Ascii.eqb Bool.eqb]; now rewrite Ga).
    pose proof (udecode_sim n (T ++ G (new_msg (md_of sc m)) j) mv (PVar x) m iNdEx (XVar "postmsgIndex") j post bs (new_msg (md_of sc m))) as H.
    assert (evl (T ++ G (new_msg (md_of sc m)) j) mv iNdEx = Some (VInt j)) as A1 by (unfold T; cbn [ev iNdEx app]; rewrite !var_cons by reflexivity; now apply kvar).
    assert (forall y, pwrite (T ++ G (new_msg (md_of sc m)) j) mv (PVar x) y = Some (T ++ G y j, mv)) as A2 by (intros; cbn [pwrite uwrite]; now rewrite Va).
    specialize (H A1 eq_refl Zs (Vx _)).
    assert (forall y, exists E' v', pwrite (T ++ G (new_msg (md_of sc m)) j) mv (PVar x) y = Some (E', v')) as A3 by (intros; eauto). specialize (H A3 (Hnew m)).
    destruct (decodeMessage sc rec j m bs (new_msg (md_of sc m))) as [y|e y| |]; cbn [drop_state rbind]; try exact Logic.I.
    + rewrite H, A2. cbn [bindo]. rewrite ex_cons. change (USet (LVar "iNdEx") (XVar "postmsgIndex")) with (put_index "postmsgIndex").
      rewrite (put_map T _ j n post); [cbn [bindo ends]; rewrite ex_nil; exists T; reflexivity|exact HT2|]. reflexivity.
    + destruct H as (v' & ->). cbn. eauto.
  - (* bytes *)
    unfold mapField. cbn [classify]. rewrite ex_app.
    eapply ends_bind; [apply (len_u64_sim (G cur) _ _ _ n i mv (HG _)); reflexivity|].
    intros [j post] _ (z & -> & Ep & B1 & B2). cbn [fst snd] in *. cbn [bindo].
    destruct (zslice data j post) as [bs|] eqn:Zs; [|exact Logic.I]. cbn [orpanic rbind ends].
    set (T := [("postbytesIndex", UV (VInt post)); ("intMapbyteLen", UV (VInt z)); ("mapbyteLen", UV (VInt z))]).
    match goal with |- mfalls _ (ex n _ ?E mv) => change E with (T ++ G cur j) end.
    assert (forallb (fun p => negb (String.eqb x (fst p))) T = true /\ forallb (fun p => negb (String.eqb "iNdEx" (fst p))) T = true) as [HT1 HT2] by (destruct Hx as [-> | ->]; split; reflexivity).
    assert (forall c, var (T ++ G c j) "iNdEx" = Some (VInt j)) as Vj by (intros c; unfold T; cbn [app]; rewrite !var_cons by reflexivity; now apply kvar).
    assert (ex n (ublock (if unsafe then [USet (LVar x) (XData iNdEx (XVar "postbytesIndex"))]
          else [USet (LVar x) (XMake (XVar "mapbyteLen")); UCopy (LVar x) iNdEx (XVar "postbytesIndex")])) (T ++ G cur j) mv = UNext (T ++ G (ue_bytes env j bs) j) mv) as Q.
    { rewrite Hbytes. destruct unsafe.
      - rewrite ex_cons. rewrite (set_map T _ cur (VRefB (base + j) bs)); [cbn [bindo]; apply ex_nil|exact HT1|].
        cbn [ev iNdEx]. rewrite Vj. change (var (T ++ G cur j) "postbytesIndex") with (Some (VInt post)). cbv iota beta. now rewrite Zs.
      - rewrite ex_cons. rewrite (set_map T _ cur (VBytes (repeat 0 (Z.to_nat z)))); [|exact HT1|].
        2:{ cbn [ev]. change (var (T ++ G cur j) "mapbyteLen") with (Some (VInt z)). cbv iota beta. destruct (Z.ltb_spec z 0); [lia|reflexivity]. }
        cbn [bindo]. rewrite ex_cons. cbn [uexec uread ev iNdEx]. rewrite Vj.
        assert (forall c, var (T ++ G c j) x = Some c) as -> by (intros c; unfold T; cbn [app]; rewrite !var_cons by (destruct Hx as [-> | ->]; reflexivity); apply Gx).
        change (var (T ++ G (VBytes (repeat 0 (Z.to_nat z))) j) "postbytesIndex") with (Some (VInt post)). cbv iota beta. rewrite Zs.
        pose proof (bytes_ok_slice _ _ _ _ Bd Zs) as (_ & Lb & _).
        rewrite zcopy_all by (rewrite zlen_repeat; lia). cbn [uset uwrite].
        assert (uassign (T ++ G (VBytes (repeat 0 (Z.to_nat z))) j) x (UV (VBytes bs)) = Some (T ++ G (VBytes bs) j)) as ->; [|cbn [bindo]; apply ex_nil].
        unfold T. cbn [app uassign]. destruct Hx as [-> | ->]; cbn [String.eqb Ascii.eqb Bool.eqb]; now rewrite Ga. }
    rewrite ex_app, Q. cbn [bindo]. rewrite ex_cons.
    change (USet (LVar "iNdEx") (XVar "postbytesIndex")) with (put_index "postbytesIndex").
    rewrite (put_map T _ j n post); [cbn [bindo]; rewrite ex_nil; exists T; reflexivity|exact HT2|]. reflexivity.
  - (* sint32 *)
    destruct (Hc eq_refl) as (a & Ec).
    apply (map_temp KSint32 n cur i a (YOf fn KInt32) (x ++ "temp") [u_varint (LVar (x ++ "temp")) (YOf fn KInt32); USet (LVar (x ++ "temp")) (XConv (YOf fn KInt32) (u_zig32 (YOf fn KInt32) (XVar (x ++ "temp"))))]); auto.
    exists s32. split.
    + eapply ends_weaken; [apply (temp_zig32 (G cur) _ mv (HG _) At (YOf fn KInt32) n a i); reflexivity|]. intros [z j] Dz ->. cbn [fst snd]. exists z. split; [|reflexivity].
      unfold decodeNumber in Dz. cbn [classify] in Dz. destruct (decodeVarint _ _ _ _) as [[w q]| | |]; try discriminate. cbn [rbind fst snd varint_post] in Dz. injection Dz as <- <-. unfold unzigzag32. now rewrite s32_twice.
    + intros j w. cbn [ev]. now rewrite var_here.
  - (* sint64 *)
    destruct (Hc eq_refl) as (a & Ec).
    apply (map_temp KSint64 n cur i a YU64 (x ++ "temp") [u_varint (LVar (x ++ "temp")) YU64; USet (LVar (x ++ "temp")) (u_zig64 (XVar (x ++ "temp")))]); auto.
    exists s64. split.
    + apply (temp_zig64 (G cur) _ mv (HG _) At n a i).
    + intros j w. cbn [ev]. now rewrite var_here.
Qed.
End MapField.

Lemma mapField_num k cur i c j : mapField sc rec env k cur data i = Ok (c, j) -> is_num k = true -> exists a, c = VInt a.
Proof.
  intros H N. assert (mapField sc rec env k cur data i = do r <- decodeNumber k (vint cur) data i; Ok (VInt (fst r), snd r)) as E by (destruct k; try discriminate; reflexivity).
  rewrite E in H. destruct (decodeNumber _ _ _ _); try discriminate. injection H as <- <-. eauto.
Qed.

Section MapLoop.
Variables (kk vk : kind) (post z : Z) (mv : val) (un : bool).
Let M (key value : val) (j : Z) : uenvt := ("mapvalue", UV value) :: ("mapkey", UV key) :: ("postIndex", UV (VInt post)) :: ("msglen", UV (VInt z)) :: K j.
Lemma M_kinv key value : kinv (M key value).
Proof. unfold M. repeat apply kpush; auto. Qed.

Lemma map_loop_sim n : forall fuel k i key value, (fuel <= k)%nat -> (is_num kk = true -> exists a, key = VInt a) -> (is_num vk = true -> exists a, value = VInt a) ->
  ends (map_loop sc rec env fuel kk vk data i post key value)
    (uloop k (fun E v => truth (evl E v (XLt iNdEx (XVar "postIndex"))))
      (ex n (ublock
          ([UDef "entryPreIndex" iNdEx; UVar "wire" YU64; u_varint (LVar "wire") YU64;
            UDef "fieldNum" (XConv (YOf fn KInt32) (XShr (XVar "wire") (num 3)))]
           ++ [UIf (XEq (XVar "fieldNum") (num 1)) (ublock (u_mapField dp unsafe fn "mapkey" kk un))
                (UIf (XEq (XVar "fieldNum") (num 2)) (ublock (u_mapField dp unsafe fn "mapvalue" vk un))
                  (ublock (USet (LVar "iNdEx") (XVar "entryPreIndex") :: u_skip (Some "postIndex")
                           ++ [UAdd "iNdEx" (XVar "skippy")])))]))) (M key value i) mv)
    (fun r o => let '(key', value', j) := r in o = UNext (M key' value' j) mv).
Proof.
  induction fuel as [|fuel IH]; intros k i key value Hk Nk Nv; [exact Logic.I|]. destruct k as [|k]; [lia|]. cbn [map_loop uloop].
  pose proof (M_kinv key value) as HM.
  assert (truth (evl (M key value i) mv (XLt iNdEx (XVar "postIndex"))) = Some (i <? post)) as ->.
  { cbn [ev iNdEx]. rewrite (kvar _ i HM). change (var (M key value i) "postIndex") with (Some (VInt post)). cbn [rel]. unfold zb. destruct (i <? post); reflexivity. }
  destruct (i <? post); [|reflexivity].
  rewrite ex_app, ex_cons. cbn [uexec]. cbn [ev iNdEx]. rewrite (kvar _ i HM). cbn [bindo]. rewrite ex_cons. cbn [uexec zero_ty bindo]. rewrite ex_cons.
  pose proof (varint_sim (LVar "wire") YU64 _ n i 0 (lpush _ "wire" mv (kpush _ "entryPreIndex" (UV (VInt i)) HM eq_refl) eq_refl)) as H. cbn [fst snd] in H. change (conv YU64) with u64 in H.
  match type of H with ends _ ?q _ => set (o := q) in * end. clearbody o.
  destruct (decodeVarint u64 0 data i) as [[wire j]|e []| |]; cbn [ends fst snd rbind] in *; auto.
  2:{ destruct H as (v & ->). cbn. eauto. }
  rewrite H. clear H o. cbn [bindo]. rewrite ex_cons. cbn [uexec ev num]. rewrite var_here. cbn [arith conv bindo]. rewrite ex_nil. cbn [bindo].
  set (num3 := s32 (Z.shiftr wire 3)).
  set (G1 := fun c j => ("fieldNum", UV (VInt num3)) :: ("wire", UV (VInt wire)) :: ("entryPreIndex", UV (VInt i)) :: M c value j).
  set (G2 := fun c j => ("fieldNum", UV (VInt num3)) :: ("wire", UV (VInt wire)) :: ("entryPreIndex", UV (VInt i)) :: M key c j).
  assert (forall c, kinv (G1 c)) as HG1 by (intros; unfold G1; repeat apply kpush; auto; apply M_kinv).
  assert (forall c, kinv (G2 c)) as HG2 by (intros; unfold G2; repeat apply kpush; auto; apply M_kinv).
  rewrite ex_cons. rewrite (ex_if _ _ _ _ _ _ (if num3 =? 1 then 1 else 0)) by reflexivity.
  assert (forall T key' value' j', uleave (M key value i) (bindo (UNext (T ++ ("fieldNum", UV (VInt num3)) :: ("wire", UV (VInt wire)) :: ("entryPreIndex", UV (VInt i)) :: M key' value' j') mv) (ex n (ublock []))) = UNext (M key' value' j') mv) as Lv.
  { intros T key' value' j'. cbn [bindo]. rewrite ex_nil. 
    change (("fieldNum", UV (VInt num3)) :: ("wire", UV (VInt wire)) :: ("entryPreIndex", UV (VInt i)) :: M key' value' j') with ([("fieldNum", UV (VInt num3)); ("wire", UV (VInt wire)); ("entryPreIndex", UV (VInt i))] ++ M key' value' j').
    rewrite app_assoc. apply leave_app. unfold M. cbn [List.length]. now rewrite (k_len K HK j' i). }
  destruct (num3 =? 1); cbn [Z.eqb Pos.eqb].
  - pose proof (mapField_sim "mapkey" G1 mv (or_introl eq_refl) HG1 (fun c i => eq_refl) (fun c i c' => eq_refl) kk un n key j Nk) as H.
    change (("fieldNum", UV (VInt num3)) :: ("wire", UV (VInt wire)) :: ("entryPreIndex", UV (VInt i)) :: M key value j) with (G1 key j).
    destruct (mapField sc rec env kk key data j) as [[c j']|e []| |] eqn:Em; cbn [ends fst snd rbind] in *; auto.
    + destruct H as (T & ->). cbn [fst snd]. rewrite leave_app by (unfold G1, M; cbn [List.length]; now rewrite (k_len K HK j' j)).
      pose proof (Lv [] c value j') as Q. cbn [app] in Q. unfold G1. rewrite Q. apply IH; [lia| |assumption]. intros N. eapply mapField_num; eauto.
    + destruct H as (v & ->). cbn. eauto.
  - rewrite ex_if with (z := if num3 =? 2 then 1 else 0) by reflexivity. destruct (num3 =? 2); cbn [Z.eqb Pos.eqb].
    + pose proof (mapField_sim "mapvalue" G2 mv (or_intror eq_refl) HG2 (fun c i => eq_refl) (fun c i c' => eq_refl) vk un n value j Nv) as H.
      change (("fieldNum", UV (VInt num3)) :: ("wire", UV (VInt wire)) :: ("entryPreIndex", UV (VInt i)) :: M key value j) with (G2 value j).
      destruct (mapField sc rec env vk value data j) as [[c j']|e []| |] eqn:Em; cbn [ends fst snd rbind] in *; auto.
      * destruct H as (T & ->). cbn [fst snd]. assert (List.length (G2 c j') = List.length (G2 value j)) as Ll by (unfold G2, M; cbn [List.length]; now rewrite (k_len K HK j' j)). rewrite leave_app by exact Ll. rewrite leave_same by exact Ll.
        pose proof (Lv [] key c j') as Q. cbn [app] in Q. unfold G2. rewrite Q. apply IH; [lia|assumption|]. intros N. eapply mapField_num; eauto.
      * destruct H as (v & ->). cbn. eauto.
    + rewrite ex_cons. change (("fieldNum", UV (VInt num3)) :: ("wire", UV (VInt wire)) :: ("entryPreIndex", UV (VInt i)) :: M key value j) with (G1 key j).
      change (USet (LVar "iNdEx") (XVar "entryPreIndex")) with (put_index "entryPreIndex").
      pose proof (put_map G1 mv HG1 [] key j n i "entryPreIndex" eq_refl eq_refl) as Q. cbn [app] in Q. rewrite Q. cbn [bindo]. rewrite ex_app.
      pose proof (skip_sim tt (G1 key) (Some "postIndex") post n i mv (HG1 key) (conj eq_refl (conj eq_refl eq_refl))) as HS.
      match type of HS with ends _ ?q _ => set (o := q) in * end. clearbody o.
      destruct (zslice data i L) as [rest|]; [|exact Logic.I]. cbn [orpanic rbind] in *.
      assert (lift tt (Skip rest) = Skip rest) as El by (destruct (Skip rest) as [| ? [] | |]; reflexivity). rewrite El in HS.
      destruct (Skip rest) as [sk|e []| |]; cbn [rbind ends] in *; auto.
      2:{ destruct HS as (v & ->). cbn. eauto. }
      destruct ((sk <? 0) || (s64 (i + sk) <? 0)); cbn [ends] in *.
      { destruct HS as (v & ->). cbn. eauto. }
      destruct (post <? s64 (i + sk)); cbn [ends] in *.
      { destruct HS as (v & ->). cbn. eauto. }
      rewrite HS. cbn [bindo]. rewrite ex_cons.
      change (("err", UE None) :: ("skippy", UV (VInt sk)) :: G1 key i) with ([("err", UE None); ("skippy", UV (VInt sk))] ++ G1 key i).
      rewrite (add_index (G1 key) [("err", UE None); ("skippy", UV (VInt sk))] n i sk mv (XVar "skippy") (HG1 key) eq_refl eq_refl). cbn [bindo]. rewrite ex_nil.
      assert (List.length (G1 key (s64 (i + sk))) = List.length (G1 key j)) as Ll by apply (k_len _ (HG1 key)). rewrite leave_app by exact Ll. rewrite leave_same by exact Ll.
      pose proof (Lv [] key value (s64 (i + sk))) as Q2. cbn [app] in Q2. unfold G1. rewrite Q2. apply IH; auto. lia.
Qed.
End MapLoop.

Lemma map_sim n kk vk i :
  ends (map_item sc rec env f kk vk data i V0) (ex n (ublock (u_map dp unique unsafe f kk vk)) (K i) V0) (falls K).
Proof.
  unfold map_item, u_map. rewrite ex_app.
  eapply ends_bind; [apply ends_lift, (len_int_sim K "msglen" "postIndex" n i V0 HK); reflexivity|].
  intros [j post] _ (z & -> & Ez & B1 & B2). cbn [fst snd] in *. cbn [bindo].
  cbn [get_slot set_slot orpanic rbind]. set (old := slot s (f_slot f)).
  rewrite ex_cons. rewrite (ex_if _ _ _ _ _ _ (if is_nil old then 1 else 0)) by reflexivity.
  set (E1 := ("postIndex", UV (VInt post)) :: ("msglen", UV (VInt z)) :: K j).
  assert (exists x1, uleave E1 (if (if is_nil old then 1 else 0) =? 0 then ex n USkip E1 V0 else ex n (USet (LSlot (f_slot f)) (XMap fn kk vk)) E1 V0) = UNext E1 (VMsg (list_set s (f_slot f) x1) u h)
    /\ x1 <> VNil /\ vmap x1 = vmap old) as (x1 & -> & X1 & X2).
  { destruct (is_nil old) eqn:Io; cbn [Z.eqb Pos.eqb uexec ev uset uwrite set_slot].
    - exists (VMap []). rewrite leave_same by reflexivity. repeat split; [discriminate|]. destruct old; try discriminate; reflexivity.
    - exists old. rewrite leave_same by reflexivity. repeat split; [|destruct old; discriminate].
      enough (list_set s (f_slot f) old = s) as -> by reflexivity. unfold old, slot. clear. revert s. generalize (f_slot f) as q. induction q; destruct s; cbn; auto. now rewrite IHq. }
  cbn [bindo]. rewrite ex_cons. cbn [uexec bindo]. rewrite ex_cons. cbn [uexec bindo]. rewrite ex_cons.
  match goal with |- context [ex n (UWhile ?c ?a) ?E0 ?v0] => change (ex n (UWhile c a) E0 v0) with (uloop rounds (fun E v => truth (evl E v c)) (ex n a) E0 v0) end.
  set (mv := VMsg (list_set s (f_slot f) x1) u h).
  pose proof (map_loop_sim kk vk post z mv (unique fn) n (S (List.length data)) rounds j (map_zero kk) (map_zero vk) Rlen) as H.
  assert (forall k, is_num k = true -> exists a, map_zero k = VInt a) as Zn by (intros k; destruct k; try discriminate; cbn; eauto).
  specialize (H (Zn kk) (Zn vk)).
  unfold E1. match type of H with ends _ ?q _ => set (o := q) in * end. clearbody o.
  destruct (map_loop _ _ _ _ _ _ _ _ _ _ _) as [[[key value] j']|e []| |]; cbn [ends lift rbind] in *; auto.
  2:{ destruct H as (v & ->). cbn. eauto. }
  rewrite H. cbn [bindo]. rewrite ex_cons.
  set (E2 := ("mapvalue", UV value) :: ("mapkey", UV key) :: ("postIndex", UV (VInt post)) :: ("msglen", UV (VInt z)) :: K j').
  assert (ex n (UPut (f_slot f)) E2 mv = UNext E2 (VMsg (list_set s (f_slot f) (VMap (map_set (vmap old) key value))) u h)) as ->.
  { cbn [uexec]. assert (get_slot mv (f_slot f) = Some x1) as -> by (unfold mv; cbn [get_slot]; now rewrite slot_set_eq by exact Hs).
    change (var E2 "mapkey") with (Some key). change (var E2 "mapvalue") with (Some value). rewrite <- X2.
    unfold mv. destruct x1; try congruence; cbn [uset uwrite set_slot]; now rewrite list_set_twice. }
  cbn [bindo orpanic rbind ends]. rewrite list_set_twice.
  set (K3 := fun j => ("mapvalue", UV value) :: ("mapkey", UV key) :: ("postIndex", UV (VInt post)) :: ("msglen", UV (VInt z)) :: K j).
  assert (kinv K3) as HK3 by (unfold K3; repeat apply kpush; auto).
  pose proof (put_sim K3 [] "v" "postIndex" n j' post (VMsg (list_set s (f_slot f) (VMap (map_set (vmap old) key value))) u h) HK3 (or_introl eq_refl) eq_refl eq_refl eq_refl) as Q.
  cbn [app] in Q. change E2 with (K3 j'). match type of Q with ?l = _ => match goal with |- falls _ _ ?q => change q with l end end. rewrite Q.
  exists [("mapvalue", UV value); ("mapkey", UV key); ("postIndex", UV (VInt post)); ("msglen", UV (VInt z))]. split; reflexivity.
Qed.

(** ** Any field *)
Lemma item_sim n lbl k wire i :
  (forall m, k = KMessage m -> lbl <> LImplicit /\ (forall x, In x (inner lbl fn (slot s (f_slot f))) -> room sc m x) /\
     (forall q x, lbl = LRepeated q -> In x (nth (f_slot f) h []) -> x <> VNil -> room sc m x)) ->
  (forall j, var (K j) "wire" = Some (VInt wire)) -> Z.land wire 7 <> 4 ->
  ends (item lbl k wire data i V0) (ex n (ublock (itm (md_pool md) lbl k)) (K i) V0) (falls K).
Proof.
  intros Hm Hw Nw. destruct (is_num k) eqn:N; [now apply number_sim|]. destruct k; try discriminate.
  - apply string_sim.
  - now apply group_sim.
  - destruct (Hm m eq_refl) as (H1 & H2 & H3). now apply message_sim.
  - apply bytes_sim.
Qed.

(** The list made for the elements of a packed field. *)
Lemma count_sim n : forall bs c E mv, 0 <= c -> c + zlen bs < 9223372036854775808 ->
  exists c', 0 <= c' /\ (bs = [] -> c' = c) /\
    urange bs (ex n (UIf (XLt (XVar "integer") (num 128)) (UInc "count") USkip)) (("count", UV (VInt c)) :: E) mv = UNext (("count", UV (VInt c')) :: E) mv.
Proof.
  induction bs as [|b bs IH]; intros c E mv Hc Hb.
  - exists c. repeat split; auto.
  - unfold zlen in Hb. cbn [List.length] in Hb. fold (zlen bs) in Hb. cbn [urange].
    rewrite (ex_if _ _ _ _ _ _ (if b <? 128 then 1 else 0)) by reflexivity. destruct (b <? 128); cbn [Z.eqb Pos.eqb].
    + cbn [uexec]. rewrite var_cons, var_here by reflexivity. cbn [arith uset uwrite]. rewrite s64_id by (unfold zlen in *; lia).
      change (uassign (("integer", UV (VInt b)) :: ("count", UV (VInt c)) :: E) "count" (UV (VInt (c + 1)))) with (Some (("integer", UV (VInt b)) :: ("count", UV (VInt (c + 1))) :: E)). cbv iota beta.
      rewrite leave_same by reflexivity. rewrite leave_cons by reflexivity. rewrite leave_same by reflexivity.
      destruct (IH (c + 1) E mv) as (c' & C1 & _ & C3); [lia|unfold zlen in *; lia|]. exists c'. split; [assumption|]. split; [discriminate|exact C3].
    + cbn [uexec]. rewrite leave_same by reflexivity. rewrite leave_cons by reflexivity. rewrite leave_same by reflexivity.
      destruct (IH c E mv) as (c' & C1 & _ & C3); [lia|unfold zlen in *; lia|]. exists c'. split; [assumption|]. split; [discriminate|exact C3].
Qed.

Lemma prealloc_sim p n k K1 j post z : kinv K1 -> var (K1 j) "postIndex" = Some (VInt post) -> var (K1 j) "packedLen" = Some (VInt z) ->
  post = j + z -> 0 <= j <= post -> post <= L -> is_num k = true ->
  exists T v1, ex n (ublock (u_prealloc p f k)) (K1 j) V0 = UNext (T ++ K1 j) v1 /\
    forallb (fun q => avoids (fst q) && negb (String.eqb "postIndex" (fst q)) && negb (String.eqb "hasFields" (fst q)) && negb (String.eqb "wire" (fst q))) T = true /\
    (v1 = V0 \/ v1 = VMsg (list_set s (f_slot f) (VList [])) u h /\ vlist (slot s (f_slot f)) = [] /\ j < post).
Proof.
  intros HK1 Vp Vl Ez B1 B2 N. unfold u_prealloc. rewrite ex_cons. cbn [uexec zero_ty bindo]. rewrite ex_app.
  assert (small data) as Sm' by exact Sm. unfold small in Sm'.
  match goal with |- context [bindo (ex n (ublock ?c) _ V0) _] => set (cnt := c) end.
  assert (exists T ec, ex n (ublock cnt) (("elementCount", UV (VInt 0)) :: K1 j) V0 = UNext (T ++ ("elementCount", UV (VInt ec)) :: K1 j) V0 /\ 0 <= ec /\ (z = 0 -> ec = 0) /\ (T = [] \/ exists y, T = [("count", y)])) as (T & ec & -> & Ec1 & Ec2 & HT).
  { assert (forall d e, (evl (("elementCount", UV (VInt 0)) :: K1 j) V0 e = Some (VInt d)) -> ex n (ublock [USet (LVar "elementCount") e]) (("elementCount", UV (VInt 0)) :: K1 j) V0 = UNext (("elementCount", UV (VInt d)) :: K1 j) V0) as St.
    { intros d e He. rewrite ex_cons. cbn [uexec]. rewrite He. reflexivity. }
    assert (evl (("elementCount", UV (VInt 0)) :: K1 j) V0 (XVar "packedLen") = Some (VInt z)) as Vl' by (cbn [ev]; now rewrite var_cons by reflexivity).
    assert (forall w, 0 < w -> exists T ec, ex n (ublock [USet (LVar "elementCount") (XDiv (XVar "packedLen") (num w))]) (("elementCount", UV (VInt 0)) :: K1 j) V0 = UNext (T ++ ("elementCount", UV (VInt ec)) :: K1 j) V0 /\ 0 <= ec /\ (z = 0 -> ec = 0) /\ (T = [] \/ exists y, T = [("count", y)])) as Dv.
    { intros w Hw. exists [], (Z.quot z w). split; [|split; [apply Z.quot_pos; lia|split; [intros ->; apply Z.quot_0_l; lia|auto]]]. apply St. cbn [ev] in Vl' |- *. cbn [ev num]. rewrite Vl'. destruct w; try lia. reflexivity. }
    assert (exists T ec, ex n (ublock [UVar "count" YInt; UCount (UIf (XLt (XVar "integer") (num 128)) (UInc "count") USkip); USet (LVar "elementCount") (XVar "count")]) (("elementCount", UV (VInt 0)) :: K1 j) V0 = UNext (T ++ ("elementCount", UV (VInt ec)) :: K1 j) V0 /\ 0 <= ec /\ (z = 0 -> ec = 0) /\ (T = [] \/ exists y, T = [("count", y)])) as Cn.
    { rewrite ex_cons. cbn [uexec zero_ty bindo]. rewrite ex_cons.
      destruct (zslice_some data j post) as (bs & Zs); [lia|lia|]. pose proof (bytes_ok_slice _ _ _ _ Bd Zs) as (_ & Lb & _).
      destruct (count_sim n bs 0 (("elementCount", UV (VInt 0)) :: K1 j) V0) as (c' & C1 & C2 & C3); [lia|lia|].
      exists [("count", UV (VInt c'))], c'. cbn [uexec]. unfold index. rewrite !var_cons, (kvar K1 j HK1), Vp by reflexivity. cbn [number]. rewrite Zs.
      change (uexec sc self data base alloc spare callee rounds n (UIf (XLt (XVar "integer") (num 128)) (UInc "count") USkip)) with (ex n (UIf (XLt (XVar "integer") (num 128)) (UInc "count") USkip)).
      match goal with |- context [urange bs ?b ?E V0] => change (urange bs b E V0) with (urange bs (ex n (UIf (XLt (XVar "integer") (num 128)) (UInc "count") USkip)) E V0) end.
      rewrite C3. cbn [bindo]. split; [reflexivity|]. split; [assumption|]. split; [|eauto]. intros ->. apply C2. eapply slice_nil; [exact Zs|lia]. }
    subst cnt. destruct k; try discriminate N; try (apply (Dv 8); lia); try (apply (Dv 4); lia); try exact Cn.
    - exists [], z. split; [apply St; exact Vl'|]. split; [lia|]. auto.
    - exists [], 0. split; [reflexivity|]. split; [lia|]. auto. }
  cbn [bindo]. rewrite ex_cons.
  set (E := T ++ ("elementCount", UV (VInt ec)) :: K1 j).
  assert (var E "elementCount" = Some (VInt ec)) as Ve by (unfold E; destruct HT as [->|(y & ->)]; reflexivity).
  assert (var E "iNdEx" = Some (VInt j)) as Vi by (unfold E; destruct HT as [->|(y & ->)]; cbn [app]; rewrite !var_cons by reflexivity; now apply kvar).
  match goal with |- context [UIf ?c _ _] => set (cond := c) end.
  assert (exists b, evl E V0 cond = Some (zb b) /\ (b = true -> ec <> 0 /\ vlist (slot s (f_slot f)) = [])) as (b & Eb & Hb).
  { set (c1 := XBoth (XNe (XVar "elementCount") (num 0)) (XEq (XLen (f_slot f)) (num 0))) in *.
    assert (exists b, evl E V0 c1 = Some (zb b) /\ (b = true -> ec <> 0 /\ vlist (slot s (f_slot f)) = [])) as (b1 & Eb1 & Hb1).
    { unfold c1. cbn [ev num]. rewrite Ve. cbn [rel get_slot]. unfold zb, truth. destruct (Z.eqb_spec ec 0) as [E0|E0]; cbn [negb Z.eqb Pos.eqb].
      - exists false. split; [reflexivity|discriminate].
      - exists (zlen (vlist (slot s (f_slot f))) =? 0). split; [reflexivity|]. intros Q. split; [assumption|]. revert Q. destruct (vlist (slot s (f_slot f))); [reflexivity|]. unfold zlen. cbn [List.length]. intros Q. exfalso. apply Z.eqb_eq in Q. lia. }
    subst cond. destruct p; [|eauto]. 
    assert (exists cp, evl E V0 (XLt (XCap (f_slot f)) (XVar "elementCount")) = Some (zb cp)) as (cp & Ecp).
    { cbn [ev get_slot]. unfold index. rewrite Vi, Ve. cbn [number rel]. eauto. }
    exists (b1 && cp). split; [|intros Q; apply andb_true_iff in Q as [Q _]; auto].
    change (evl E V0 (XBoth c1 (XLt (XCap (f_slot f)) (XVar "elementCount")))) with (match truth (evl E V0 c1) with Some true => evl E V0 (XLt (XCap (f_slot f)) (XVar "elementCount")) | Some false => Some (zb false) | None => None end).
    rewrite Eb1, Ecp. destruct b1; reflexivity. }
  clearbody cond. exists (T ++ [("elementCount", UV (VInt ec))]).
  assert (forallb (fun q => avoids (fst q) && negb (String.eqb "postIndex" (fst q)) && negb (String.eqb "hasFields" (fst q)) && negb (String.eqb "wire" (fst q))) (T ++ [("elementCount", UV (VInt ec))]) = true) as HF by (destruct HT as [->|(y & ->)]; reflexivity).
  rewrite (ex_if _ _ _ _ _ _ (if b then 1 else 0)) by exact Eb. rewrite <- app_assoc. cbn [app]. fold E.
  destruct b; cbn [Z.eqb Pos.eqb].
  - destruct (Hb eq_refl) as [Hb1 Hb2]. exists (VMsg (list_set s (f_slot f) (VList [])) u h).
    assert (evl E V0 (XSlice fn k) = Some (VList [])) as Es. { cbn [ev]. rewrite Ve. cbn [number]. destruct (Z.ltb_spec ec 0); [lia|reflexivity]. }
    cbn [uexec]. rewrite Es. cbn [uset uwrite set_slot]. rewrite leave_same by reflexivity. cbn [bindo]. rewrite ex_nil.
    split; [reflexivity|]. split; [exact HF|]. right. split; [reflexivity|]. split; [exact Hb2|]. destruct (Z.eq_dec z 0); [|lia]. exfalso. auto.
  - exists V0. cbn [uexec]. rewrite leave_same by reflexivity. cbn [bindo]. rewrite ex_nil. split; [reflexivity|]. split; [exact HF|auto].
Qed.

Lemma num_shape lbl k wire i v' j : is_num k = true -> item lbl k wire data i V0 = Ok (v', j) -> exists x, v' = VMsg (list_set s (f_slot f) x) u h.
Proof.
  intros N H. pose proof (num_ends rec env md lbl k wire i) as Q. 
  destruct (decodeNumber k 0 data i) as [[z q]|e []| |] eqn:D.
  - specialize (Q UStuck (fun _ _ => True) N). specialize (Q Logic.I). rewrite H in Q. destruct Q as (w & E & _). cbn [fst] in E. rewrite E. unfold stored. eauto.
  - specialize (Q (URetn (Some e) VNil) (fun _ _ => False) N). cbn [ends] in Q. rewrite H in Q. destruct Q as (w & _ & [] & _). eauto.
  - specialize (Q UStuck (fun _ _ => False) N). cbn [ends] in Q. rewrite H in Q. destruct Q as (w & _ & [] & _). exact Logic.I.
  - specialize (Q UStuck (fun _ _ => False) N). cbn [ends] in Q. rewrite H in Q. destruct Q as (w & _ & [] & _). exact Logic.I.
Qed.
Lemma first_same q k wire i post fuel o G : is_num k = true -> vlist (slot s (f_slot f)) = [] -> i < post ->
  ends (packed_loop sc rec env fuel md f (LRepeated q) k wire data i post (VMsg (list_set s (f_slot f) (VList [])) u h)) o G ->
  ends (packed_loop sc rec env fuel md f (LRepeated q) k wire data i post V0) o G.
Proof.
  intros N Hv Hi. destruct fuel as [|fuel]; [auto|]. cbn [packed_loop]. destruct (Z.ltb_spec i post); [|lia].
  assert (forall v, item (LRepeated q) k wire data i v = do r <- lift v (decodeNumber k 0 data i); do v' <- orpanic (store f (LRepeated q) k (VInt (fst r)) v); Ok (v', snd r)) as Ei
    by (intros v; unfold fieldItem; destruct k; try discriminate; reflexivity).
  rewrite !Ei. destruct (decodeNumber k 0 data i) as [[z j]|e []| |]; cbn [lift rbind]; auto.
  unfold store. cbn [get_slot set_slot orpanic rbind fst snd]. rewrite slot_set_eq by exact Hs. rewrite Hv. cbn [vlist app]. now rewrite list_set_twice.
Qed.
End Field.

(** Packed fields. *)
Section Packed.
Variables (rec : Z -> nat -> list Z -> val -> res val val) (env : uenv) (md : mdesc).
Variables (dp : nat -> dispatch) (pool : nat -> bool) (unique : Z -> bool) (unsafe : bool).
Variables (f : fdesc) (lbl : label) (k : kind) (wire post : Z) (u : list Z) (h : list (list val)) (K : Z -> uenvt).
Hypothesis HK : kinv K.
Hypothesis N : is_num k = true.
Hypothesis Vp : forall j, var (K j) "postIndex" = Some (VInt post).

Lemma packed_sim n p : forall fuel r i s, (fuel <= r)%nat -> (f_slot f < List.length s)%nat ->
  ends (packed_loop sc rec env fuel md f lbl k wire data i post (VMsg s u h))
    (uloop r (fun E v => truth (evl E v (XLt iNdEx (XVar "postIndex")))) (ex n (ublock (u_item dp pool unique unsafe p f lbl k))) (K i) (VMsg s u h))
    (fun r o => o = UNext (K (snd r)) (fst r)).
Proof.
  induction fuel as [|fuel IH]; intros r i s Hr Hs; [exact Logic.I|]. destruct r as [|r]; [lia|]. cbn [packed_loop uloop].
  assert (truth (evl (K i) (VMsg s u h) (XLt iNdEx (XVar "postIndex"))) = Some (i <? post)) as ->.
  { cbn [ev iNdEx]. rewrite (kvar K i HK), Vp. cbn [rel]. unfold zb. destruct (i <? post); reflexivity. }
  destruct (i <? post); [|reflexivity].
  pose proof (number_sim K HK f s u h Hs rec env md dp pool unique unsafe p n lbl k wire i N) as H.
  destruct (fieldItem sc rec env md f lbl k wire data i (VMsg s u h)) as [[v' j]|e v'| |] eqn:E; cbn [ends rbind fst snd] in *; auto.
  - destruct H as (T & _ & ->). cbn [fst snd]. rewrite leave_app by apply (k_len K HK).
    apply num_shape in E as (x & ->); auto. apply IH; [lia|]. now rewrite list_set_length.
  - destruct H as (v & ->). cbn. eauto.
Qed.
End Packed.
End Facts.
