(** Well-formed patterns never make Match report ErrBadPattern. *)
From Coq Require Import ZArith List Bool Lia.
From Verif Require Import Pattern PatternSpec PatternFacts PatternRun PatternComplete PatternTotal.
Import ListNotations.
Open Scope Z_scope.

(** The inside of a class without unescaped brackets, braces and commas. *)
Inductive cls : list Z -> Prop :=
| c_nil : cls []
| c_plain c x : ~ In c [92; 93; 91; 123; 125; 44] -> cls x -> cls (c :: x)
| c_esc c x : cls x -> cls (92 :: c :: x).
(** A balanced piece of a pattern. *)
Inductive seg : list Z -> Prop :=
| s_nil : seg []
| s_plain c s : ~ In c [92; 91; 123; 125] -> seg s -> seg (c :: s)
| s_esc c s : seg s -> seg (92 :: c :: s)
| s_class neg x s : neg = [] /\ hd 0 x <> 33 /\ hd 0 x <> 94 \/ neg = [33] \/ neg = [94] -> x <> [] -> cls x -> seg s -> seg (91 :: neg ++ x ++ 93 :: s)
| s_alt x s : seg x -> seg s -> seg (123 :: x ++ 125 :: s).

Lemma seg_app a b : seg a -> seg b -> seg (a ++ b).
Proof.
  induction 1 as [|c s N S IH|c s S IH|neg x s NN NE C S IH|x s S1 IH1 S2 IH2]; intros B; cbn [app]; auto.
  - now apply s_plain; auto.
  - now apply s_esc; auto.
  - rewrite <- !app_assoc. cbn [app]. apply s_class; auto.
  - rewrite <- app_assoc. cbn [app]. apply s_alt; auto.
Qed.
Definition high (l : list Z) := Forall (fun b => 128 <= b) l.
Lemma high_plain c l : 128 <= c -> (forall x, In x l -> x < 128) -> ~ In c l.
Proof. intros H F I. apply F in I. lia. Qed.
Ltac lows := let x := fresh in intros x; cbn [In]; intuition lia.
Lemma cls_high h y : high h -> cls (h ++ y) -> cls y.
Proof.
  induction 1 as [|c h Hc Hh IH]; cbn [app]; auto. intros C. inversion C; subst; auto. lia.
Qed.
Lemma seg_high h s : high h -> seg (h ++ s) -> seg s.
Proof.
  induction 1 as [|c h Hc Hh IH]; cbn [app]; auto. intros S. inversion S; subst; auto; lia.
Qed.
Lemma high_seg h : high h -> seg h.
Proof. induction 1 as [|c h Hc Hh IH]; [constructor|]. apply s_plain; auto. apply high_plain; [exact Hc|lows]. Qed.
Lemma high_seg_app h s : high h -> seg s -> seg (h ++ s).
Proof. intros. apply seg_app; auto. now apply high_seg. Qed.
Lemma take_high c x t w : high (firstn w (c :: x ++ 93 :: t)) -> (1 <= w)%nat -> (w - 1 <= length x)%nat.
Proof.
  intros H W. destruct (Nat.le_gt_cases (w - 1) (length x)) as [|G]; auto. exfalso.
  assert (In 93 (firstn w (c :: x ++ 93 :: t))) as I.
  { destruct w as [|w]; [lia|]. cbn [firstn]. right. rewrite firstn_app. apply in_or_app. right. destruct (w - length x)%nat eqn:E; [lia|]. now left. }
  unfold high in H. rewrite Forall_forall in H. apply H in I. lia.
Qed.
Lemma rune_in c x t : cls x -> exists x', skipn (snd (decode_rune (c :: x ++ 93 :: t))) (c :: x ++ 93 :: t) = x' ++ 93 :: t /\ cls x'.
Proof.
  intros C. destruct (Z.lt_ge_cases c 128) as [L|G].
  - rewrite (decode_ascii c _ L). cbn [snd skipn]. eauto.
  - destruct (decode_high c (x ++ 93 :: t) G) as [_ H]. pose proof (decode_width (c :: x ++ 93 :: t) ltac:(discriminate)) as W.
    destruct (decode_rune (c :: x ++ 93 :: t)) as [r w]. cbn [snd] in *. pose proof (take_high c x t w H ltac:(lia)) as LW.
    destruct w as [|w]; [lia|]. cbn [skipn]. replace (S w - 1)%nat with w in LW by lia. cbn [firstn] in H. inversion H as [|? ? _ H']; subst. rewrite firstn_app in H'. apply Forall_app in H'. destruct H' as [H' _].
    exists (skipn w x). split.
    + rewrite skipn_app. replace (w - length x)%nat with 0%nat by lia. reflexivity.
    + apply (cls_high (firstn w x)); auto. now rewrite firstn_skipn.
Qed.
Lemma class_stop pat r t : forall fuel p last x m p', skipn p pat = x ++ 93 :: t -> cls x -> class_loop fuel pat r p last = Some (m, p') ->
  exists y, skipn p' pat = y ++ 93 :: t /\ cls y.
Proof.
  induction fuel as [|fuel IH]; intros p last x m p' X C H; [discriminate|]. cbn [class_loop] in H. rewrite X in H.
  destruct x as [|c x]; cbn [app] in H. { cbn [Z.eqb Pos.eqb] in H. injection H as <- <-. exists []. split; auto. }
  destruct (c =? 93) eqn:C93. { apply Z.eqb_eq in C93. subst c. inversion C as [|? ? N|]; subst. exfalso. apply N. cbn. auto. }
  cbn [app] in X. destruct (decode_rune (c :: x ++ 93 :: t)) as [q w] eqn:D. cbn beta iota zeta in H.
  inversion C as [|? ? N Cx|c1 x1 C1]; subst.
  - destruct (rune_in c x t Cx) as (x' & X' & C'). rewrite D in X'. cbn [snd] in X'. rewrite <- X, <- skipn_plus in X'. rewrite X' in H.
    assert (q <> 92) as Nq. { intros ->. apply decode_low in D; [|lia]. destruct D as (s' & E & _). injection E as E _. apply N. cbn. auto. }
    destruct ((last <? MaxRune) && (q =? 45) && negb match x' ++ 93 :: t with [] => true | d :: _ => d =? 93 end) eqn:RG.
    + apply andb_true_iff in RG. destruct RG as [_ RG]. destruct x' as [|d x']; [discriminate|]. cbn [app] in H, X'.
      inversion C' as [|? ? Nd Cd|c1 x1 C1]; subst.
      * assert ((d =? 92) = false) as D92 by (apply Z.eqb_neq; intros ->; apply Nd; cbn; auto). rewrite D92, X' in H.
        destruct (rune_in d x' t Cd) as (x2 & X2 & C2). destruct (decode_rune (d :: x' ++ 93 :: t)) as [q2 w2]. cbn [snd] in X2. rewrite <- X', <- skipn_plus in X2. cbn beta iota zeta in H.
        destruct ((last <=? r) && (r <=? q2)); [injection H as <- <-; eauto|]. eapply IH; eauto.
      * cbn [Z.eqb Pos.eqb] in H. cbn [app] in X'. assert (skipn (S (p + w)) pat = c1 :: x1 ++ 93 :: t) as X3. { apply skipn_cons_at in X'. replace (S (p + w)) with (p + w + 1)%nat by lia. apply X'. }
        rewrite X3 in H. destruct (rune_in c1 x1 t C1) as (x2 & X2 & C2). destruct (decode_rune (c1 :: x1 ++ 93 :: t)) as [q2 w2]. cbn [snd] in X2. rewrite <- X3, <- skipn_plus in X2. cbn beta iota zeta in H.
        destruct ((last <=? r) && (r <=? q2)); [injection H as <- <-; eauto|]. eapply IH; eauto.
    + apply Z.eqb_neq in Nq. rewrite Nq in H. replace (p + w + 0)%nat with (p + w)%nat in H by lia. destruct (q =? r); [injection H as <- <-; eauto|]. eapply IH; eauto.
  - rewrite (decode_ascii 92 _ ltac:(lia)) in D. injection D as <- <-. cbn [Z.eqb Pos.eqb] in H. rewrite andb_false_r in H. cbn [andb] in H. cbn [app] in X.
    assert (skipn (p + 1) pat = c1 :: x1 ++ 93 :: t) as X3 by (apply skipn_cons_at in X; apply X). rewrite X3 in H.
    destruct (rune_in c1 x1 t C1) as (x2 & X2 & C2). destruct (decode_rune (c1 :: x1 ++ 93 :: t)) as [q2 w2]. cbn [snd] in X2. rewrite <- X3, <- skipn_plus in X2. cbn beta iota zeta in H.
    destruct (q2 =? r); [injection H as <- <-; eauto|]. eapply IH; eauto.
Qed.
Lemma cls_closing x t : cls x -> forall i, indexUnescapedByte (x ++ 93 :: t) 93 i = Some (i + length x)%nat.
Proof.
  induction 1 as [|c x N C IH|c x C IH]; intros i; cbn [app indexUnescapedByte].
  - cbn. f_equal. lia.
  - assert ((c =? 92) = false) as -> by (apply Z.eqb_neq; intros ->; apply N; cbn; auto). assert ((c =? 93) = false) as -> by (apply Z.eqb_neq; intros ->; apply N; cbn; auto).
    rewrite IH. cbn [length]. f_equal. lia.
  - cbn [Z.eqb Pos.eqb]. rewrite IH. cbn [length]. f_equal. lia.
Qed.

(** * Validation *)
Definition V (s : list Z) (d : Z) : Prop := forall fuel, (length s < fuel)%nat -> validate_loop fuel s d = Some true.
Lemma V_plain c s d : ~ In c [92; 91; 123; 125] -> V s d -> V (c :: s) d.
Proof.
  intros N H fuel L. destruct fuel as [|fuel]; [lia|]. cbn [validate_loop]. cbn [length] in L.
  assert ((c =? 92) = false) as -> by (apply Z.eqb_neq; intros ->; apply N; cbn; auto). assert ((c =? 91) = false) as -> by (apply Z.eqb_neq; intros ->; apply N; cbn; auto).
  assert ((c =? 123) = false) as -> by (apply Z.eqb_neq; intros ->; apply N; cbn; auto). assert ((c =? 125) = false) as -> by (apply Z.eqb_neq; intros ->; apply N; cbn; auto). apply H. lia.
Qed.
Lemma V_esc c s d : V s d -> V (92 :: c :: s) d.
Proof. intros H fuel L. destruct fuel as [|fuel]; [lia|]. cbn [validate_loop Z.eqb Pos.eqb]. cbn [length] in L. apply H. lia. Qed.
Lemma V_cls x s d : cls x -> V s d -> V (x ++ s) d.
Proof.
  induction 1 as [|c x N C IH|c x C IH]; intros H; cbn [app]; auto.
  - apply V_plain; auto. intros I. apply N. cbn [In] in *. tauto.
  - apply V_esc; auto.
Qed.
Lemma cls_skip x s : cls x -> skip_class (x ++ 93 :: s) = Some s.
Proof.
  induction 1 as [|c x N C IH|c x C IH]; cbn [app skip_class]; auto.
  assert ((c =? 92) = false) as -> by (apply Z.eqb_neq; intros ->; apply N; cbn; auto). assert ((c =? 93) = false) as -> by (apply Z.eqb_neq; intros ->; apply N; cbn; auto). exact IH.
Qed.
Lemma V_seg x : seg x -> forall s d, 0 <= d -> V s d -> V (x ++ s) d.
Proof.
  induction 1 as [|c x N S IH|c x S IH|neg x y NN NE C S IH|x y S1 IH1 S2 IH2]; intros s d Hd H; cbn [app]; auto.
  - apply V_plain; auto.
  - apply V_esc; auto.
  - intros fuel L. destruct fuel as [|fuel]; [lia|]. cbn [validate_loop Z.eqb Pos.eqb].
    assert (match (neg ++ x ++ 93 :: y) ++ s with b :: s'' => if (b =? 94) || (b =? 33) then s'' else (neg ++ x ++ 93 :: y) ++ s | [] => (neg ++ x ++ 93 :: y) ++ s end = x ++ 93 :: y ++ s) as ->.
    { rewrite <- !app_assoc. cbn [app]. destruct NN as [(-> & N1 & N2)|[->| ->]]; cbn [app]; auto. destruct x as [|b x]; [congruence|]. cbn [hd app] in *. apply Z.eqb_neq in N1, N2. now rewrite N1, N2. }
    destruct x as [|b x]; [congruence|]. cbn [app]. assert ((b =? 93) = false) as ->. { apply Z.eqb_neq. intros ->. inversion C as [|? ? N|]; subst. apply N. cbn. auto. }
    change (b :: x ++ 93 :: y ++ s) with ((b :: x) ++ 93 :: y ++ s). rewrite (cls_skip _ _ C). apply IH; auto.
    cbn [length app] in L. rewrite !app_length in L. cbn [length] in L. rewrite app_length in L. cbn [length] in L. rewrite app_length. lia.
  - intros fuel L. destruct fuel as [|fuel]; [lia|]. cbn [validate_loop Z.eqb Pos.eqb]. cbn [length] in L. rewrite <- app_assoc in *. cbn [app] in *. apply IH1; [lia| |lia].
    intros fuel' L'. destruct fuel' as [|fuel']; [lia|]. cbn [validate_loop Z.eqb Pos.eqb]. assert ((d + 1 =? 0) = false) as -> by (apply Z.eqb_neq; lia). replace (d + 1 - 1) with d by lia. apply IH2; auto. cbn [length] in L'. lia.
Qed.
Lemma V_nil : V [] 0.
Proof. intros fuel L. destruct fuel; [lia|]. reflexivity. Qed.
Lemma valid_V s : V s 0 -> doValidatePattern s = Some true.
Proof. intros H. apply H. lia. Qed.
Lemma seg_V s : seg s -> V s 0.
Proof. intros H. rewrite <- (app_nil_r s). apply V_seg; auto; [lia|apply V_nil]. Qed.

(** * Braces *)
Lemma cls_closealt x s : cls x -> forall i a, indexMatchedClosingAlt (x ++ s) i a = indexMatchedClosingAlt s (i + length x)%nat a.
Proof.
  induction 1 as [|c x N C IH|c x C IH]; intros i a; cbn [app indexMatchedClosingAlt].
  - f_equal. cbn. lia.
  - assert ((c =? 92) = false) as -> by (apply Z.eqb_neq; intros ->; apply N; cbn; auto). assert ((c =? 123) = false) as -> by (apply Z.eqb_neq; intros ->; apply N; cbn; auto 10).
    assert ((c =? 125) = false) as -> by (apply Z.eqb_neq; intros ->; apply N; cbn; auto 10). rewrite IH. f_equal. cbn [length]. lia.
  - cbn [Z.eqb Pos.eqb]. rewrite IH. f_equal. cbn [length]. lia.
Qed.
Lemma seg_closealt x : seg x -> forall s i a, 1 <= a -> indexMatchedClosingAlt (x ++ s) i a = indexMatchedClosingAlt s (i + length x)%nat a.
Proof.
  induction 1 as [|c x N S IH|c x S IH|neg x y NN NE C S IH|x y S1 IH1 S2 IH2]; intros s i a A; cbn [app].
  - f_equal. cbn. lia.
  - cbn [indexMatchedClosingAlt]. assert ((c =? 92) = false) as -> by (apply Z.eqb_neq; intros ->; apply N; cbn; auto). assert ((c =? 123) = false) as -> by (apply Z.eqb_neq; intros ->; apply N; cbn; auto 10).
    assert ((c =? 125) = false) as -> by (apply Z.eqb_neq; intros ->; apply N; cbn; auto 10). rewrite IH by auto. f_equal. cbn [length]. lia.
  - cbn [indexMatchedClosingAlt Z.eqb Pos.eqb]. rewrite IH by auto. f_equal. cbn [length]. lia.
  - cbn [indexMatchedClosingAlt Z.eqb Pos.eqb]. rewrite <- !app_assoc. cbn [app].
    assert (forall j, indexMatchedClosingAlt (neg ++ x ++ 93 :: y ++ s) j a = indexMatchedClosingAlt (x ++ 93 :: y ++ s) (j + length neg)%nat a) as E.
    { intros j. destruct NN as [(-> & _)|[->| ->]]; cbn [app length indexMatchedClosingAlt Z.eqb Pos.eqb]; f_equal; lia. }
    rewrite E, (cls_closealt x _ C). cbn [indexMatchedClosingAlt Z.eqb Pos.eqb]. rewrite IH by auto. f_equal. cbn [length]. rewrite !app_length. cbn [length]. lia.
  - cbn [indexMatchedClosingAlt Z.eqb Pos.eqb]. rewrite <- !app_assoc. cbn [app]. rewrite IH1 by lia. cbn [indexMatchedClosingAlt Z.eqb Pos.eqb].
    assert ((a + 1 - 1 =? 0) = false) as -> by (apply Z.eqb_neq; lia). replace (a + 1 - 1) with a by lia. rewrite IH2 by auto. f_equal. cbn [length]. rewrite app_length. cbn [length]. lia.
Qed.
Lemma closealt_at x s : seg x -> indexMatchedClosingAlt (x ++ 125 :: s) 0 1 = Some (length x).
Proof. intros S. rewrite (seg_closealt x S) by lia. reflexivity. Qed.
Lemma cls_nextalt x s : cls x -> forall i a, indexNextAlt (x ++ s) i a = indexNextAlt s (i + length x)%nat a.
Proof.
  induction 1 as [|c x N C IH|c x C IH]; intros i a; cbn [app indexNextAlt].
  - f_equal. cbn. lia.
  - assert ((c =? 92) = false) as -> by (apply Z.eqb_neq; intros ->; apply N; cbn; auto). assert ((c =? 123) = false) as -> by (apply Z.eqb_neq; intros ->; apply N; cbn; auto 10).
    assert ((c =? 125) = false) as -> by (apply Z.eqb_neq; intros ->; apply N; cbn; auto 10). assert ((c =? 44) = false) as -> by (apply Z.eqb_neq; intros ->; apply N; cbn; auto 10). cbn [andb]. rewrite IH. f_equal. cbn [length]. lia.
  - cbn [Z.eqb Pos.eqb]. rewrite IH. f_equal. cbn [length]. lia.
Qed.
Lemma class_nextalt neg x s i a : neg = [] /\ hd 0 x <> 33 /\ hd 0 x <> 94 \/ neg = [33] \/ neg = [94] -> cls x ->
  indexNextAlt (91 :: neg ++ x ++ 93 :: s) i a = indexNextAlt s (i + (length neg + length x + 2))%nat a.
Proof.
  intros NN C. cbn [indexNextAlt Z.eqb Pos.eqb andb].
  assert (forall j, indexNextAlt (neg ++ x ++ 93 :: s) j a = indexNextAlt (x ++ 93 :: s) (j + length neg)%nat a) as E.
  { intros j. destruct NN as [(-> & _)|[->| ->]]; cbn [app length indexNextAlt Z.eqb Pos.eqb andb]; f_equal; lia. }
  rewrite E, (cls_nextalt x _ C). cbn [indexNextAlt Z.eqb Pos.eqb andb]. f_equal. lia.
Qed.
Lemma seg_nextalt2 x : seg x -> forall s i a, 2 <= a -> indexNextAlt (x ++ s) i a = indexNextAlt s (i + length x)%nat a.
Proof.
  induction 1 as [|c x N S IH|c x S IH|neg x y NN NE C S IH|x y S1 IH1 S2 IH2]; intros s i a A; cbn [app].
  - f_equal. cbn. lia.
  - cbn [indexNextAlt]. assert ((c =? 92) = false) as -> by (apply Z.eqb_neq; intros ->; apply N; cbn; auto). assert ((c =? 123) = false) as -> by (apply Z.eqb_neq; intros ->; apply N; cbn; auto 10).
    assert ((c =? 125) = false) as -> by (apply Z.eqb_neq; intros ->; apply N; cbn; auto 10). assert ((a =? 1) = false) as E by (apply Z.eqb_neq; lia). rewrite E, andb_false_r, IH by auto. f_equal. cbn [length]. lia.
  - cbn [indexNextAlt Z.eqb Pos.eqb]. rewrite IH by auto. f_equal. cbn [length]. lia.
  - rewrite <- !app_assoc. cbn [app]. rewrite (class_nextalt neg x _ i a NN C). rewrite IH by auto. f_equal. cbn [length]. rewrite !app_length. cbn [length]. lia.
  - cbn [indexNextAlt Z.eqb Pos.eqb]. rewrite <- !app_assoc. cbn [app]. rewrite IH1 by lia. cbn [indexNextAlt Z.eqb Pos.eqb].
    replace (a + 1 - 1) with a by lia. rewrite IH2 by auto. f_equal. cbn [length]. rewrite app_length. cbn [length]. lia.
Qed.
Lemma seg_nextalt x : seg x -> forall i, match indexNextAlt x i 1 with
  | None => True | Some k => exists y z, x = y ++ 44 :: z /\ k = (i + length y)%nat /\ seg y /\ seg z end.
Proof.
  induction 1 as [|c x N S IH|c x S IH|neg x y NN NE C S IH|x y S1 IH1 S2 IH2]; intros i.
  - exact I.
  - cbn [indexNextAlt]. assert ((c =? 92) = false) as -> by (apply Z.eqb_neq; intros ->; apply N; cbn; auto). assert ((c =? 123) = false) as -> by (apply Z.eqb_neq; intros ->; apply N; cbn; auto 10).
    assert ((c =? 125) = false) as -> by (apply Z.eqb_neq; intros ->; apply N; cbn; auto 10). destruct (c =? 44) eqn:C44; cbn [andb Z.eqb Pos.eqb].
    + apply Z.eqb_eq in C44. subst c. exists [], x. split; [reflexivity|]. split; [cbn; lia|]. split; [constructor|assumption].
    + specialize (IH (Datatypes.S i)). destruct (indexNextAlt x (Datatypes.S i) 1); auto. destruct IH as (y & z & -> & -> & Sy & Sz). exists (c :: y), z. split; [reflexivity|]. split; [cbn [length]; lia|]. split; [now apply s_plain|assumption].
  - cbn [indexNextAlt Z.eqb Pos.eqb]. specialize (IH (Datatypes.S (Datatypes.S i))). destruct (indexNextAlt x _ 1); auto. destruct IH as (y & z & -> & -> & Sy & Sz). exists (92 :: c :: y), z. split; [reflexivity|]. split; [cbn [length]; lia|]. split; [now apply s_esc|assumption].
  - rewrite (class_nextalt neg x y i 1 NN C). specialize (IH (i + (length neg + length x + 2))%nat). destruct (indexNextAlt y _ 1); auto. destruct IH as (u & z & -> & -> & Sy & Sz).
    exists (91 :: neg ++ x ++ 93 :: u), z. split; [cbn [app]; rewrite <- !app_assoc; reflexivity|]. split; [cbn [length]; rewrite !app_length; cbn [length]; lia|]. split; [now apply s_class|assumption].
  - cbn [indexNextAlt Z.eqb Pos.eqb]. rewrite (seg_nextalt2 x S1) by lia. cbn [indexNextAlt Z.eqb Pos.eqb].
    change (1 + 1 - 1) with 1. specialize (IH2 (Datatypes.S (Datatypes.S i + length x))). destruct (indexNextAlt y _ 1); auto. destruct IH2 as (u & z & -> & -> & Sy & Sz).
    exists (123 :: x ++ 125 :: u), z. split; [cbn [app]; rewrite <- !app_assoc; reflexivity|]. split; [cbn [length]; rewrite !app_length; cbn [length]; lia|]. split; [now apply s_alt|assumption].
Qed.
Lemma alternatives_good run : forall fuel pre x post, seg x -> (forall alt, seg alt -> run alt <> PBad) ->
  alternatives fuel run (pre ++ x ++ 125 :: post) (length pre) (length pre + length x) <> PBad.
Proof.
  induction fuel as [|fuel IH]; intros pre x post S R; [discriminate|]. cbn [alternatives]. unfold between.
  destruct (Nat.leb_spec (length pre) (length pre + length x)) as [_|]; [|lia]. rewrite !app_length. cbn [length].
  destruct (Nat.leb_spec (length pre + length x) (length pre + (length x + Datatypes.S (length post)))) as [_|]; [|lia]. cbn [andb].
  replace (length pre + length x - length pre)%nat with (length x) by lia.
  rewrite skipn_app, skipn_all, Nat.sub_diag. cbn [app skipn]. rewrite firstn_app, firstn_all, Nat.sub_diag. cbn [firstn]. rewrite app_nil_r.
  pose proof (seg_nextalt x S 0) as NA. destruct (indexNextAlt x 0 1) as [k|]; [|now apply R]. destruct NA as (y & z & -> & -> & Sy & Sz). cbn [Nat.add].
  rewrite firstn_app, firstn_all, Nat.sub_diag. cbn [firstn]. rewrite app_nil_r. specialize (R y Sy) as Ry. destruct (run y); try congruence.
  replace (pre ++ (y ++ 44 :: z) ++ 125 :: post) with ((pre ++ y ++ [44]) ++ z ++ 125 :: post) by (now rewrite <- !app_assoc; cbn [app]).
  replace (length pre + length y + 1)%nat with (length (pre ++ y ++ [44%Z])) by (rewrite !app_length; cbn [length]; lia).
  replace (length pre + length (y ++ 44%Z :: z))%nat with (length (pre ++ y ++ [44%Z]) + length z)%nat by (rewrite !app_length; cbn [length]; lia).
  now apply IH.
Qed.
Lemma seg_open s : seg (123 :: s) -> exists x post, s = x ++ 125 :: post /\ seg x /\ seg post.
Proof. intros S. inversion S as [|c s' N S'| | |x post Sx Sp]; subst; [exfalso; apply N; cbn; auto|eauto]. Qed.
Lemma from_after pre x post : from (pre ++ x ++ 125 :: post) (S (length x + length pre)) = Some post.
Proof.
  unfold from. rewrite !app_length. cbn [length]. destruct (Nat.leb_spec (S (length x + length pre)) (length pre + (length x + S (length post)))) as [_|]; [|lia]. f_equal.
  rewrite skipn_app. rewrite (skipn_all2 pre) by lia. cbn [app]. replace (S (length x + length pre) - length pre)%nat with (S (length x)) by lia.
  rewrite skipn_app. rewrite (skipn_all2 x) by lia. cbn [app]. replace (S (length x) - length x)%nat with 1%nat by lia. reflexivity.
Qed.
Lemma zero_good : forall fuel s, seg s -> isZeroLengthPattern fuel s <> PBad.
Proof.
  induction fuel as [|fuel IH]; intros s S; [discriminate|]. cbn [isZeroLengthPattern].
  destruct (is_str s [] || is_str s [42] || is_str s [42; 42] || is_str s [47; 42; 42] || is_str s [42; 42; 47] || is_str s [47; 42; 42; 47]); [discriminate|].
  destruct s as [|c s]; [discriminate|]. destruct (c =? 123) eqn:C.
  - apply Z.eqb_eq in C. subst c. destruct (seg_open s S) as (x & post & -> & Sx & Sp). rewrite (closealt_at x post Sx). cbv zeta.
    pose proof (from_after [123] x post) as FA. cbn [length app] in FA. replace (Datatypes.S (length x + 1)) with (Datatypes.S (Datatypes.S (length x))) in FA by lia.
    refine (alternatives_good _ _ [123] x post Sx _). intros alt Sa. rewrite FA. apply IH. now apply seg_app.
  - rewrite (valid_V _ (seg_V _ S)). discriminate.
Qed.

(** * The loop *)
Definition sub (pat : list Z) (i j : nat) : Prop := (i <= j)%nat /\ seg (firstn (j - i) (skipn i pat)).
Lemma sub_refl pat i : sub pat i i.
Proof. split; [lia|]. rewrite Nat.sub_diag. constructor. Qed.
Lemma firstn_plus {A} a b (l : list A) : firstn (a + b) l = firstn a l ++ firstn b (skipn a l).
Proof. revert b l. induction a as [|a IH]; intros b l; [reflexivity|]. destruct l; cbn [Nat.add firstn skipn app]; [now rewrite firstn_nil|]. now rewrite IH. Qed.
Lemma sub_trans pat i j k : sub pat i j -> sub pat j k -> sub pat i k.
Proof.
  intros [L1 S1] [L2 S2]. split; [lia|]. replace (k - i)%nat with ((j - i) + (k - j))%nat by lia. rewrite firstn_plus. apply seg_app; auto.
  rewrite <- skipn_plus. replace (i + (j - i))%nat with j by lia. exact S2.
Qed.
Lemma sub_suffix pat i j : sub pat i j -> seg (skipn j pat) -> seg (skipn i pat).
Proof.
  intros [L S] T. rewrite <- (firstn_skipn (j - i) (skipn i pat)). apply seg_app; auto. rewrite <- skipn_plus. now replace (i + (j - i))%nat with j by lia.
Qed.
Lemma sub_move pat i x t : skipn i pat = x ++ t -> seg x -> sub pat i (i + length x) /\ skipn (i + length x) pat = t.
Proof.
  intros E S. split.
  - split; [lia|]. replace (i + length x - i)%nat with (length x) by lia. rewrite E, firstn_app, firstn_all, Nat.sub_diag. cbn [firstn]. now rewrite app_nil_r.
  - rewrite skipn_plus, E, skipn_app, skipn_all, Nat.sub_diag. reflexivity.
Qed.
Lemma sub_prefix pat tail i j k : (j <= k)%nat -> (k <= length pat)%nat -> sub pat i j -> sub (firstn k pat ++ tail) i j.
Proof.
  intros L K [L1 S]. split; auto. replace (firstn (j - i) (skipn i (firstn k pat ++ tail))) with (firstn (j - i) (skipn i pat)); auto.
  rewrite <- (firstn_skipn k pat) at 1. rewrite !skipn_app, !firstn_app. rewrite !skipn_length, !firstn_length.
  replace (j - i - (Nat.min k (length pat) - i))%nat with 0%nat by lia. reflexivity.
Qed.
Lemma rune_move pat p c s : skipn p pat = c :: s -> ~ In c [92; 91; 123; 125] -> seg (c :: s) ->
  let w := snd (decode_rune (c :: s)) in sub pat p (p + w) /\ seg (skipn (p + w) pat).
Proof.
  intros X N S. cbn zeta. assert (seg s) as Ss by (inversion S; subst; auto; exfalso; apply N; cbn; auto 10).
  pose proof (decode_width (c :: s) ltac:(discriminate)) as W. destruct (Z.lt_ge_cases c 128) as [L|G].
  - rewrite (decode_ascii c _ L). cbn [snd]. destruct (sub_move pat p [c] s X) as [A B]; [constructor; auto; constructor|]. cbn [length] in *. now rewrite B.
  - destruct (decode_high c s G) as [_ H]. destruct (decode_rune (c :: s)) as [r w]. cbn [snd] in *.
    destruct (sub_move pat p (firstn w (c :: s)) (skipn w (c :: s))) as [A B]; [now rewrite firstn_skipn|now apply high_seg|].
    rewrite firstn_length_le in A, B by lia. split; auto. rewrite B. apply (seg_high (firstn w (c :: s))); auto. now rewrite firstn_skipn.
Qed.
Lemma esc_move pat p c s : skipn p pat = 92 :: c :: s -> seg s ->
  let w := snd (decode_rune (c :: s)) in sub pat p (p + 1 + w) /\ seg (skipn (p + 1 + w) pat).
Proof.
  intros X Ss. cbn zeta. pose proof (decode_width (c :: s) ltac:(discriminate)) as W. destruct (Z.lt_ge_cases c 128) as [L|G].
  - rewrite (decode_ascii c _ L). cbn [snd]. destruct (sub_move pat p [92; c] s X) as [A B]; [apply s_esc; constructor|]. cbn [length] in *. replace (p + 1 + 1)%nat with (p + 2)%nat by lia. now rewrite B.
  - destruct (decode_high c s G) as [_ H]. destruct (decode_rune (c :: s)) as [r w]. cbn [snd] in *. destruct w as [|w]; [lia|]. cbn [firstn] in H. inversion H as [|? ? _ H']; subst.
    destruct (sub_move pat p (92 :: c :: firstn w s) (skipn w s)) as [A B]; [cbn [app]; now rewrite firstn_skipn|apply s_esc; now apply high_seg|].
    cbn [length] in A, B, W. rewrite firstn_length_le in A, B by lia. replace (p + 1 + S w)%nat with (p + S (S w))%nat by lia. split; auto. rewrite B. apply (seg_high (firstn w s)); auto. now rewrite firstn_skipn.
Qed.
Definition good (pat name : list Z) (ds st : option (nat * nat)) (pi : nat) : Prop :=
  seg (skipn pi pat) /\ (pi <= length pat)%nat /\
  (forall dp dn, ds = Some (dp, dn) -> sub pat dp pi) /\
  (inert name st \/ exists sp sn, st = Some (sp, sn) /\ sub pat sp pi /\ forall dp dn, ds = Some (dp, dn) -> sub pat dp sp).
Lemma good_prefix pat name ds st pi tail : good pat name ds st pi -> seg tail -> good (firstn pi pat ++ tail) name ds st pi.
Proof.
  intros (G1 & G2 & G3 & G4) T. split; [|split; [|split]].
  - rewrite skipn_app, (skipn_all2 (firstn pi pat)) by (rewrite firstn_length; lia). cbn [app]. rewrite firstn_length_le by lia. now rewrite Nat.sub_diag.
  - rewrite app_length, firstn_length. lia.
  - intros dp dn E. apply sub_prefix; auto. eapply G3; eauto.
  - destruct G4 as [I|(sp & sn & E & S1 & S2)]; [now left|right]. exists sp, sn. split; auto. split; [apply sub_prefix; auto|]. intros dp dn D. apply sub_prefix; auto; [destruct S1; auto|eapply S2; eauto].
Qed.
Lemma good_move pat name ds st pi p : good pat name ds st pi -> sub pat pi p -> (p <= length pat)%nat -> seg (skipn p pat) -> good pat name ds st p.
Proof.
  intros (G1 & G2 & G3 & G4) S L T. split; [|split; [|split]]; auto.
  - intros dp dn E. eapply sub_trans; eauto.
  - destruct G4 as [I|(sp & sn & E & S1 & S2)]; [now left|right]. exists sp, sn. split; auto. split; [eapply sub_trans; eauto|]. auto.
Qed.
Section Good.
Variable rec : list Z -> list Z -> option (nat * nat) -> option (nat * nat) -> nat -> nat -> pres.
Variable pat name : list Z.
Hypothesis REC : forall pat' ds st pi ni, good pat' name ds st pi -> rec pat' name ds st pi ni <> PBad.
Inductive steps (s : mstate) : mstep -> Prop :=
| st_return r : r <> PBad -> steps s (Return r)
| st_break p b : V (skipn p pat) 0 -> steps s (Break (MS p (nameIdx s) b (doublestar s) (star s)))
| st_one p i b : sub pat (patIdx s) p -> seg (skipn p pat) -> (p <= length pat)%nat -> steps s (Continue (MS p i b (doublestar s) (star s)))
| st_star p : sub pat (patIdx s) p -> seg (skipn p pat) -> (p <= length pat)%nat -> steps s (Continue (MS p (nameIdx s) false (doublestar s) (Some (p, nameIdx s))))
| st_dirs p : sub pat (patIdx s) p -> seg (skipn p pat) -> (p <= length pat)%nat -> steps s (Continue (MS p (nameIdx s) true (Some (p, nameIdx s)) None)).
Lemma le_of {A} p (l : list A) : skipn p l <> [] -> (p <= length l)%nat.
Proof. intros H. destruct (Nat.le_gt_cases p (length l)); auto. rewrite skipn_all2 in H by lia. congruence. Qed.
Lemma split_le p x t : skipn p pat = x ++ t -> (p <= length pat)%nat -> (p + length x <= length pat)%nat.
Proof. intros E L. assert (length (skipn p pat) = length (x ++ t)) as F by now rewrite E. rewrite skipn_length, app_length in F. lia. Qed.
Lemma switch_good s : good pat name (doublestar s) (star s) (patIdx s) -> steps s (match_switch rec pat name s).
Proof.
  intros G. pose proof G as G0. destruct G as (G1 & G2 & G3 & G4). unfold match_switch.
  assert (steps s (Break s)) as BS by (destruct s; apply (st_break (MS _ _ _ _ _)); now apply seg_V).
  destruct (skipn (patIdx s) pat) as [|c rest] eqn:X; [exact BS|].
  assert (forall x t, c :: rest = x ++ t -> seg x -> seg t -> sub pat (patIdx s) (patIdx s + length x) /\ seg (skipn (patIdx s + length x) pat) /\ (patIdx s + length x <= length pat)%nat) as MV.
  { intros x t E Sx St. rewrite E in X. destruct (sub_move pat _ x t X Sx) as [A B]. rewrite B. split; auto. split; auto. eapply split_le; eauto. }
  assert (forall c', ~ In c' [92; 91; 123; 125] -> seg [c']) as PL by (intros c' N; apply s_plain; [exact N|constructor]).
  destruct (c =? 42) eqn:C42.
  { apply Z.eqb_eq in C42. subst c. assert (seg rest) as Sr by (inversion G1; auto). assert (seg [42]) as S42 by (apply PL; cbn; lia).
    destruct (MV [42] rest eq_refl S42 Sr) as (M1 & M2 & M3). cbn [length] in M1, M2, M3.
    destruct rest as [|d rest']; [now apply st_star|]. destruct (d =? 42) eqn:D42; [|now apply st_star].
    apply Z.eqb_eq in D42. subst d. assert (seg rest') as Sr' by (inversion Sr; auto).
    destruct (MV [42; 42] rest' eq_refl) as (N1 & N2 & N3); auto. { apply (seg_app [42] [42]); auto. } cbn [length] in N1, N2, N3.
    destruct (startOfSegment s); [|now apply st_star]. destruct rest' as [|e rest']; [apply st_return; discriminate|].
    destruct (decode_rune (e :: rest')) as [q w] eqn:D. destruct (q =? 47) eqn:Q; [|now apply st_star]. apply Z.eqb_eq in Q. subst q. apply decode_low in D; [|lia]. destruct D as (s' & E & ->). injection E as -> ->.
    assert (seg s') as Ss' by (inversion Sr'; auto). destruct (MV [42; 42; 47] s' eq_refl) as (O1 & O2 & O3); auto. { apply (seg_app [42] [42; 47]); auto. apply (seg_app [42] [47]); auto. apply PL. cbn. lia. }
    cbn [length] in O1, O2, O3. replace (patIdx s + 2 + 1)%nat with (patIdx s + 3)%nat by lia. now apply st_dirs. }
  destruct (c =? 63) eqn:C63.
  { apply Z.eqb_eq in C63. subst c. assert (seg rest) as Sr by (inversion G1; auto). destruct (MV [63] rest eq_refl) as (M1 & M2 & M3); auto. { apply PL. cbn. lia. } cbn [length] in M1, M2, M3.
    destruct (decode_rune (skipn (nameIdx s) name)) as [q w]. destruct (q =? 47); [apply st_break; rewrite X; now apply seg_V|now apply st_one]. }
  destruct (c =? 91) eqn:C91.
  { apply Z.eqb_eq in C91. subst c. inversion G1 as [|? ? N| |neg x t NN NE C St E|]; subst; [exfalso; apply N; cbn; auto|].
    destruct (neg ++ x ++ 93 :: t) as [|b rest'] eqn:RE; [destruct neg; [destruct x|]; discriminate|].
    destruct (decode_rune (skipn (nameIdx s) name)) as [q w]. cbn beta iota zeta.
    assert ((if (b =? 33) || (b =? 94) then (patIdx s + 2)%nat else (patIdx s + 1)%nat) = (patIdx s + (length neg + 1))%nat) as ->.
    { destruct NN as [(-> & N1 & N2)|[->| ->]]; cbn [app] in RE.
      - destruct x as [|b' x]; [congruence|]. injection RE as -> <-. cbn [hd] in N1, N2. apply Z.eqb_neq in N1, N2. rewrite N1, N2. cbn. lia.
      - injection RE as <- <-. cbn. lia.
      - injection RE as <- <-. cbn. lia. }
    assert (skipn (patIdx s + (length neg + 1)) pat = x ++ 93 :: t) as Xp.
    { rewrite <- RE in X. change (91 :: neg ++ x ++ 93 :: t) with ((91 :: neg) ++ x ++ 93 :: t) in X. replace (length neg + 1)%nat with (length (91 :: neg)) by (cbn; lia). rewrite skipn_plus, X, skipn_app, skipn_all, Nat.sub_diag. reflexivity. }
    rewrite Xp. destruct x as [|b1 x1] eqn:XX; [congruence|]. cbn [app]. assert ((b1 =? 93) = false) as ->. { apply Z.eqb_neq. intros ->. inversion C as [|? ? N|]; subst. apply N. cbn. auto. }
    rewrite <- XX in *. assert (seg t) as St' by exact St. assert (patIdx s + (length neg + 1) <= length pat)%nat as L1. { apply le_of. rewrite Xp. destruct x; discriminate. }
    destruct (class_loop (S (length pat)) pat q (patIdx s + (length neg + 1)) MaxRune) as [[m p']|] eqn:CL; [|apply st_return; discriminate].
    destruct (class_stop pat q t _ _ _ x m p' Xp C CL) as (y & Xy & Cy). assert (p' <= length pat)%nat as L2 by (apply le_of; rewrite Xy; destruct y; discriminate).
    destruct (eqb m ((b =? 33) || (b =? 94))).
    - destruct (Nat.leb_spec (length pat) p') as [Q|Q]; [rewrite skipn_all2 in Xy by lia; destruct y; discriminate|]. apply st_break. rewrite Xy. apply V_cls; auto. apply V_plain; [cbn; lia|]. now apply seg_V.
    - unfold from. destruct (Nat.leb_spec p' (length pat)) as [Q|Q]; [|lia]. rewrite Xy, (cls_closing y t Cy 0). cbn [Nat.add].
      assert (skipn (p' + length y + 1) pat = t) as Xt. { rewrite <- Nat.add_assoc, skipn_plus, Xy. rewrite skipn_app, (skipn_all2 y) by lia. replace (length y + 1 - length y)%nat with 1%nat by lia. reflexivity. }
      assert (skipn (patIdx s) pat = (91 :: neg ++ x ++ [93]) ++ t) as Xa. { rewrite X, <- RE. cbn [app]. rewrite <- !app_assoc. reflexivity. }
      destruct (sub_move pat (patIdx s) (91 :: neg ++ x ++ [93]) t Xa) as [A B]. { apply s_class; auto. constructor. }
      assert (p' + length y + 1 = patIdx s + length (91%Z :: neg ++ x ++ [93%Z]))%nat as ->.
      { assert (length (skipn p' pat) = length (y ++ 93 :: t)) as LE by now rewrite Xy. rewrite skipn_length, app_length in LE. cbn [length] in LE. assert (length (skipn (patIdx s) pat) = length ((91 :: neg ++ x ++ [93]) ++ t)) as LF by now rewrite Xa.
        rewrite skipn_length in LF. rewrite app_length in LF. cbn [length] in LF |- *. lia. }
      apply st_one; auto; [now rewrite B|]. eapply split_le; eauto. }
  destruct (c =? 123) eqn:C123.
  { apply Z.eqb_eq in C123. subst c. destruct (seg_open rest G1) as (x & post & -> & Sx & Sp). rewrite (closealt_at x post Sx). cbv zeta. apply st_return.
    assert (pat = (firstn (patIdx s) pat ++ [123]) ++ x ++ 125 :: post) as PE. { rewrite <- app_assoc. cbn [app]. rewrite <- X. now rewrite firstn_skipn. }
    assert (length (firstn (patIdx s) pat ++ [123%Z]) = patIdx s + 1)%nat as LP by (rewrite app_length, firstn_length_le by lia; reflexivity).
    assert (from pat (S (length x + (patIdx s + 1))) = Some post) as FA. { pose proof (from_after (firstn (patIdx s) pat ++ [123%Z]) x post) as FA. rewrite <- PE, LP in FA. exact FA. }
    assert (forall run k, (forall alt, seg alt -> run alt <> PBad) -> alternatives k run pat (patIdx s + 1) (length x + (patIdx s + 1)) <> PBad) as AG.
    { intros run k R. pose proof (alternatives_good run k (firstn (patIdx s) pat ++ [123%Z]) x post Sx R) as AG. rewrite <- PE, LP in AG. rewrite (Nat.add_comm (length x)). exact AG. }
    apply AG. intros alt Sa. rewrite FA.
    apply REC. apply good_prefix; auto. now apply seg_app. }
  destruct (c =? 92) eqn:C92.
  { apply Z.eqb_eq in C92. subst c. inversion G1 as [|? ? N|d u Su| |]; subst; [exfalso; apply N; cbn; auto|].
    assert (skipn (patIdx s + 1) pat = d :: u) as Y by (apply skipn_cons_at in X; apply X). rewrite Y. destruct (esc_move pat (patIdx s) d u X Su) as [E1 E2]. cbv zeta in E1, E2.
    pose proof (decode_width (d :: u) ltac:(discriminate)) as W. assert (length (skipn (patIdx s + 1) pat) = length (d :: u)) as LF by now rewrite Y. rewrite skipn_length in LF.
    destruct (decode_rune (d :: u)) as [q w]. cbn [snd] in *. destruct (decode_rune (skipn (nameIdx s) name)) as [q2 w2]. destruct (q =? q2).
    - apply st_one; auto. cbn [length] in LF, W. assert (length (skipn (patIdx s) pat) = length (92 :: d :: u)) as LG by now rewrite X. rewrite skipn_length in LG. cbn [length] in LG. lia.
    - cbv zeta. replace (patIdx s + 1)%nat with (S (patIdx s)) by lia. assert (nth_error pat (patIdx s) = Some 92) as ->. { rewrite <- (firstn_skipn (patIdx s) pat), X. rewrite nth_error_app2 by (rewrite firstn_length; lia). rewrite firstn_length_le by lia. now rewrite Nat.sub_diag. }
      cbn [Z.eqb Pos.eqb]. apply st_break. rewrite X. now apply seg_V. }
  rewrite X. apply Z.eqb_neq in C42, C63, C91, C123, C92.
  assert (c <> 125) as C125. { intros ->. inversion G1 as [|? ? N| | |]; subst. apply N. cbn. auto 10. }
  assert (~ In c [92; 91; 123; 125]) as N by (cbn [In]; intuition lia). destruct (rune_move pat (patIdx s) c rest X N G1) as [E1 E2]. cbv zeta in E1, E2.
  pose proof (decode_width (c :: rest) ltac:(discriminate)) as W. assert (length (skipn (patIdx s) pat) = length (c :: rest)) as LF by now rewrite X. rewrite skipn_length in LF. cbn [length] in LF, W.
  destruct (decode_rune (c :: rest)) as [q w]. cbn [snd] in *. destruct (decode_rune (skipn (nameIdx s) name)) as [q2 w2]. destruct (q =? q2); [apply st_one; auto; lia|].
  cbv zeta. apply st_break. destruct (patIdx s) as [|pq] eqn:PI; [rewrite X; now apply seg_V|]. destruct (nth_error pat pq) as [e|] eqn:NE; [|rewrite X; now apply seg_V]. destruct (e =? 92) eqn:E92; [|rewrite X; now apply seg_V].
  apply Z.eqb_eq in E92. subst e. assert (skipn pq pat = 92 :: c :: rest) as ->.
  { apply nth_error_split in NE. destruct NE as (l1 & l2 & -> & LL). rewrite skipn_app, (skipn_all2 l1) in X by lia. replace (S pq - length l1)%nat with 1%nat in X by lia. cbn [app skipn] in X. rewrite skipn_app, (skipn_all2 l1) by lia. replace (pq - length l1)%nat with 0%nat by lia. cbn [app skipn]. now rewrite X. }
  apply seg_V. apply s_esc. inversion G1; subst; auto; exfalso; apply N; cbn; auto 10.
Qed.
Lemma loop_good : forall fuel s, good pat name (doublestar s) (star s) (patIdx s) -> match_loop rec pat name fuel s <> PBad.
Proof.
  induction fuel as [|fuel IH]; intros s G; [discriminate|]. cbn [match_loop].
  destruct (nameIdx s <? length name)%nat.
  - pose proof (switch_good s G) as MV. inversion MV as [r F E|p b Vp E|p i b S1 S2 L E|p S1 S2 L E|p S1 S2 L E]; subst.
    + exact F.
    + unfold match_backtrack. cbn [star doublestar patIdx nameIdx]. set (s1 := MS p (nameIdx s) b (doublestar s) (star s)). destruct G as (G1 & G2 & G3 & G4).
      assert (match_fail pat s1 <> PBad) as FF. { unfold match_fail. destruct (patIdx s1 <? length pat)%nat; [|discriminate]. change (patIdx s1) with p. rewrite (valid_V _ Vp). discriminate. }
      assert (inert name (star s) -> match (match doublestar s with Some (dp, dn) => match next_segment (S (length name)) name dn with
          Some i => Continue (MS dp i true (Some (dp, i)) (star s)) | None => Return (match_fail pat s1) end | None => Return (match_fail pat s1) end) with Return r => r | Continue st'' => match_loop rec pat name fuel st'' | Break _ => PPanic end <> PBad) as DD.
      { intros IN. destruct (doublestar s) as [[dp dn]|] eqn:DS; [|exact FF]. destruct (next_segment (S (length name)) name dn) as [j|]; [|exact FF].
        pose proof (G3 dp dn eq_refl) as SB. apply IH. cbn [star doublestar patIdx nameIdx]. split; [eapply sub_suffix; eauto|]. split; [destruct SB; lia|]. split; [|now left]. intros dp' dn' E'. injection E' as <- <-. apply sub_refl. }
      destruct (star s) as [[sp sn]|] eqn:SS; [|apply DD; exact I].
      destruct (decode_rune (skipn sn name)) as [q w] eqn:DQ. destruct (q =? 47) eqn:Q47; [apply DD; cbn [inert]; rewrite DQ; now apply Z.eqb_eq|].
      destruct G4 as [IN|(sp' & sn' & E' & S1 & S2)]; [cbn [inert] in IN; rewrite DQ in IN; cbn in IN; subst q; discriminate|]. injection E' as <- <-.
      apply IH. cbn [star doublestar patIdx nameIdx]. split; [eapply sub_suffix; eauto|]. split; [destruct S1; lia|]. split; [exact S2|]. right. exists sp, (sn + w)%nat. split; auto. split; [apply sub_refl|exact S2].
    + apply IH. cbn [star doublestar patIdx nameIdx]. eapply good_move; eauto.
    + apply IH. cbn [star doublestar patIdx nameIdx]. destruct (good_move _ _ _ _ _ _ G S1 L S2) as (H1 & H2 & H3 & _). split; auto. split; auto. split; auto. right. exists p, (nameIdx s). split; auto. split; [apply sub_refl|exact H3].
    + apply IH. cbn [star doublestar patIdx nameIdx]. split; auto. split; auto. split; [|now left]. intros dp dn E'. injection E' as <- <-. apply sub_refl.
  - unfold from. destruct (patIdx s <=? length pat)%nat; [|discriminate]. apply zero_good. apply G.
Qed.
End Good.
Lemma doMatch_good : forall depth pat name ds st pi ni, good pat name ds st pi -> doMatch depth pat name ds st pi ni <> PBad.
Proof.
  induction depth as [|depth IH]; intros pat name ds st pi ni G; [discriminate|]. cbn [doMatch]. apply loop_good; auto.
Qed.
Lemma Match_good p n : seg p -> Match p n <> PBad.
Proof. intros S. unfold Match. apply doMatch_good. split; [exact S|]. split; [lia|]. split; [discriminate|]. left. exact I. Qed.

(** * Validated patterns are well-formed *)
(** No unescaped bracket, brace or comma inside a character class ([b]: inside one). *)
Fixpoint quiet (b : bool) (s : list Z) : bool :=
  match s with
  | [] => true
  | c :: s' =>
    if c =? 92 then match s' with [] => true | _ :: s'' => quiet b s'' end
    else if b then (if c =? 93 then quiet false s' else negb (existsb (Z.eqb c) [91; 123; 125; 44]) && quiet true s')
    else quiet (c =? 91) s'
  end.
Fixpoint segd (d : nat) (s : list Z) : Prop :=
  match d with O => seg s | S d => exists x s', s = x ++ 125 :: s' /\ seg x /\ segd d s' end.
Lemma segd_app h : (forall y, seg y -> seg (h ++ y)) -> forall d s, segd d s -> segd d (h ++ s).
Proof.
  intros H [|d] s; cbn [segd]; auto. intros (x & s' & -> & Sx & Sd). exists (h ++ x), s'. rewrite <- app_assoc. auto.
Qed.
Lemma skip_cls : forall n s t, (length s <= n)%nat -> quiet true s = true -> skip_class s = Some t -> exists x, s = x ++ 93 :: t /\ cls x /\ quiet false t = true.
Proof.
  induction n as [|n IH]; intros s t L Q H; [destruct s; [discriminate|cbn in L; lia]|]. destruct s as [|c s]; [discriminate|]. cbn [skip_class] in H. cbn [quiet] in Q. cbn [length] in L. destruct (c =? 92) eqn:C92.
  - apply Z.eqb_eq in C92. subst c. destruct s as [|d s]; [discriminate|]. cbn [length] in L. destruct (IH s t ltac:(lia) Q H) as (x & -> & Cx & Qt). exists (92 :: d :: x). split; auto. split; auto. now apply c_esc.
  - destruct (c =? 93) eqn:C93; [injection H as ->; apply Z.eqb_eq in C93; subst c; exists []; split; auto; split; auto; constructor|].
    apply andb_true_iff in Q. destruct Q as [Q1 Q2]. destruct (IH s t ltac:(lia) Q2 H) as (x & -> & Cx & Qt). exists (c :: x). split; auto. split; auto. apply c_plain; auto.
    apply negb_true_iff in Q1. cbn [existsb] in Q1. rewrite !orb_false_iff in Q1. destruct Q1 as (E1 & E2 & E3 & E4 & _). apply Z.eqb_neq in C92, C93, E1, E2, E3, E4. cbn [In]. intuition lia.
Qed.
Lemma quiet_seg : forall fuel s d, validate_loop fuel s (Z.of_nat d) = Some true -> quiet false s = true -> segd d s.
Proof.
  induction fuel as [|fuel IH]; intros s d H Q; [discriminate|]. cbn [validate_loop] in H. destruct s as [|c s].
  { injection H as H. apply Z.eqb_eq in H. destruct d; [constructor|lia]. }
  cbn [quiet] in Q. destruct (c =? 92) eqn:C92.
  { apply Z.eqb_eq in C92. subst c. destruct s as [|e s]; [discriminate|]. apply (segd_app [92; e]); [intros; now apply s_esc|]. now apply IH. }
  destruct (c =? 91) eqn:C91.
  { apply Z.eqb_eq in C91. subst c.
    set (s1 := match s with b :: s'' => if (b =? 94) || (b =? 33) then s'' else s | [] => s end) in H.
    assert (exists neg, s = neg ++ s1 /\ (neg = [] /\ hd 0 s1 <> 33 /\ hd 0 s1 <> 94 \/ neg = [33] \/ neg = [94]) /\ quiet true s1 = true) as (neg & E & NN & Q1).
    { subst s1. destruct s as [|b s2]; [exists []; repeat split; auto; left; repeat split; auto; cbn; lia|]. cbn [quiet] in Q.
      destruct (b =? 94) eqn:B94; [apply Z.eqb_eq in B94; subst b; exists [94]; cbn in Q |- *; auto|]. destruct (b =? 33) eqn:B33; [apply Z.eqb_eq in B33; subst b; exists [33]; cbn in Q |- *; auto|].
      cbn [orb]. exists []. cbn [app]. split; auto. apply Z.eqb_neq in B94, B33. split; [left; cbn [hd]; auto|]. exact Q. }
    rewrite E. clearbody s1. destruct s1 as [|b s2] eqn:S1; [discriminate|]. destruct (b =? 93) eqn:B93; [discriminate|]. destruct (skip_class (b :: s2)) as [t|] eqn:SK; [|discriminate].
    destruct (skip_cls _ _ _ (le_n _) Q1 SK) as (x & Ex & Cx & Qt). rewrite Ex in NN |- *.
    assert (x <> []) as NE. { intros ->. cbn [app] in Ex. injection Ex as -> _. discriminate. }
    assert (hd 0 (x ++ 93 :: t) = hd 0 x) as HD by (destruct x; [congruence|reflexivity]). rewrite HD in NN.
    replace (91 :: neg ++ x ++ 93 :: t) with ((91 :: neg ++ x ++ [93]) ++ t) by (cbn [app]; rewrite <- !app_assoc; reflexivity).
    apply segd_app; [|now apply IH]. intros y Sy. cbn [app]. rewrite <- !app_assoc. cbn [app]. now apply s_class. }
  cbn [andb] in Q. destruct (c =? 123) eqn:C123.
  { apply Z.eqb_eq in C123. subst c. replace (Z.of_nat d + 1) with (Z.of_nat (S d)) in H by lia. apply IH in H; auto. destruct H as (x & s' & -> & Sx & Sd).
    replace (123 :: x ++ 125 :: s') with ((123 :: x ++ [125]) ++ s') by (cbn [app]; rewrite <- !app_assoc; reflexivity). apply segd_app; auto. intros y Sy. cbn [app]. rewrite <- !app_assoc. cbn [app]. now apply s_alt. }
  destruct (c =? 125) eqn:C125.
  { apply Z.eqb_eq in C125. subst c. destruct (Z.of_nat d =? 0) eqn:D0; [discriminate|]. destruct d as [|d]; [discriminate|]. replace (Z.of_nat (S d) - 1) with (Z.of_nat d) in H by lia. apply IH in H; auto. exists [], s. split; auto. split; auto. constructor. }
  apply (segd_app [c]); [|now apply IH]. intros y Sy. apply s_plain; auto. apply Z.eqb_neq in C92, C91, C123, C125. cbn [In]. intuition lia.
Qed.
Lemma valid_seg p : ValidatePattern p = true -> quiet false p = true -> seg p.
Proof.
  unfold ValidatePattern, doValidatePattern. intros H Q. destruct (validate_loop (S (length p)) p 0) as [b|] eqn:E; [|discriminate]. subst b. now apply (quiet_seg _ p 0%nat) in E.
Qed.
