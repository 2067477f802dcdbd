(** Match terminates without panicking, whatever the pattern and the name. *)
From Coq Require Import ZArith List Bool Lia.
From Verif Require Import Pattern PatternSpec PatternFacts PatternRun PatternComplete.
Import ListNotations.
Open Scope Z_scope.

Lemma skip_class_len : forall n s s', (length s <= n)%nat -> skip_class s = Some s' -> (length s' < length s)%nat.
Proof.
  induction n as [|n IH]; intros s s' L H; [destruct s; [discriminate|cbn in L; lia]|].
  destruct s as [|c s]; [discriminate|]. cbn [skip_class] in H. cbn [length] in *. destruct (c =? 92).
  - destruct s as [|d s]; [discriminate|]. cbn [length] in *. apply IH in H; lia.
  - destruct (c =? 93); [injection H as <-; lia|]. apply IH in H; lia.
Qed.
Lemma validate_total : forall fuel s a, (length s < fuel)%nat -> validate_loop fuel s a <> None.
Proof.
  induction fuel as [|fuel IH]; intros s a L; [lia|]. cbn [validate_loop]. destruct s as [|c s]; [discriminate|]. cbn [length] in L.
  destruct (c =? 92); [destruct s as [|d s]; [discriminate|cbn [length] in L; apply IH; lia]|].
  destruct (c =? 91).
  - match goal with |- match ?x with [] => _ | _ :: _ => _ end <> None => set (s1 := x) end.
    assert (length s1 <= length s)%nat as L1 by (subst s1; destruct s as [|b s2]; [cbn; lia|]; destruct ((b =? 94) || (b =? 33)); cbn; lia).
    destruct s1 as [|b s2] eqn:E; [discriminate|]. destruct (b =? 93); [discriminate|]. destruct (skip_class (b :: s2)) as [s3|] eqn:K; [|discriminate].
    apply (skip_class_len _ _ _ (le_n _)) in K. apply IH. lia.
  - destruct (c =? 123); [apply IH; lia|]. destruct (c =? 125); [|apply IH; lia]. destruct (a =? 0); [discriminate|apply IH; lia].
Qed.
Lemma doValidate_total s : doValidatePattern s <> None.
Proof. apply validate_total. lia. Qed.
Lemma class_total pat r : forall fuel p last, (p <= length pat)%nat -> (length pat - p < fuel)%nat ->
  exists b p', class_loop fuel pat r p last = Some (b, p') /\ (p <= p' <= length pat)%nat.
Proof.
  induction fuel as [|fuel IH]; intros p last Lp Fu; [lia|]. cbn [class_loop].
  destruct (skipn p pat) as [|c s] eqn:X; [exists false, p; split; [reflexivity|lia]|]. destruct (c =? 93); [exists false, p; split; [reflexivity|lia]|].
  pose proof (decode_width (c :: s) ltac:(discriminate)) as W. assert (length (skipn p pat) = length (c :: s)) as LE by now rewrite X. rewrite skipn_length in LE.
  destruct (decode_rune (c :: s)) as [q w] eqn:D. cbn [snd] in W. cbn beta iota zeta.
  assert (forall t, (p + w <= t <= length pat)%nat -> (t + snd (decode_rune (skipn t pat)) <= length pat)%nat) as TB.
  { intros t Ht. destruct (skipn t pat) as [|d u] eqn:Y; [cbn; lia|]. pose proof (decode_width (d :: u) ltac:(discriminate)) as V. assert (length (skipn t pat) = length (d :: u)) as LF by now rewrite Y. rewrite skipn_length in LF. lia. }
  destruct ((last <? MaxRune) && (q =? 45) && negb match skipn (p + w) pat with [] => true | d :: _ => d =? 93 end).
  - assert (exists t, (match skipn (p + w) pat with [] => (p + w)%nat | d :: _ => if d =? 92 then S (p + w) else (p + w)%nat end) = t /\ (p + w <= t <= length pat)%nat) as (t & -> & Ht).
    { eexists. split; [reflexivity|]. destruct (skipn (p + w) pat) as [|d u] eqn:Y; [lia|]. destruct (skipn_cons_at _ _ _ _ Y) as [Ly _]. destruct (d =? 92); lia. }
    specialize (TB t Ht). destruct (decode_rune (skipn t pat)) as [q2 w2]. cbn [snd] in TB. cbn beta iota zeta.
    destruct ((last <=? r) && (r <=? q2)); [exists true, (t + w2)%nat; split; [reflexivity|lia]|].
    destruct (IH (t + w2)%nat MaxRune) as (b & p' & E & L'); [lia|lia|]. exists b, p'. split; [exact E|lia].
  - specialize (TB (p + w)%nat ltac:(lia)).
    destruct (if q =? 92 then decode_rune (skipn (p + w) pat) else (q, 0%nat)) as [q2 w2] eqn:D2.
    assert (p + w + w2 <= length pat)%nat as B2 by (destruct (q =? 92); [rewrite D2 in TB; exact TB|injection D2 as _ <-; lia]).
    destruct (q2 =? r); [exists true, (p + w + w2)%nat; split; [reflexivity|lia]|].
    destruct (IH (p + w + w2)%nat q2) as (b & p' & E & L'); [lia|lia|]. exists b, p'. split; [exact E|lia].
Qed.
Lemma nextalt_bound : forall n s i a k, (length s <= n)%nat -> indexNextAlt s i a = Some k -> (i <= k < i + length s)%nat.
Proof.
  induction n as [|n IH]; intros s i a k L H; [destruct s; [discriminate|cbn in L; lia]|].
  destruct s as [|c s]; [discriminate|]. cbn [indexNextAlt] in H. cbn [length] in *. destruct (c =? 92).
  - destruct s as [|d s]; [discriminate|]. cbn [length] in *. apply IH in H; lia.
  - destruct (c =? 123); [apply IH in H; lia|]. destruct (c =? 125); [apply IH in H; lia|]. destruct ((c =? 44) && (a =? 1)); [injection H as <-; lia|]. apply IH in H; lia.
Qed.
Lemma closealt_bound : forall n s i a k, (length s <= n)%nat -> indexMatchedClosingAlt s i a = Some k -> (i <= k < i + length s)%nat.
Proof.
  induction n as [|n IH]; intros s i a k L H; [destruct s; [discriminate|cbn in L; lia]|].
  destruct s as [|c s]; [discriminate|]. cbn [indexMatchedClosingAlt] in H. cbn [length] in *. destruct (c =? 92).
  - destruct s as [|d s]; [discriminate|]. cbn [length] in *. apply IH in H; lia.
  - destruct (c =? 123); [apply IH in H; lia|]. destruct (c =? 125); [destruct (a - 1 =? 0); [injection H as <-; lia|apply IH in H; lia]|]. apply IH in H; lia.
Qed.
Lemma unescaped_bound c : forall n s i k, (length s <= n)%nat -> indexUnescapedByte s c i = Some k -> (i <= k < i + length s)%nat.
Proof.
  induction n as [|n IH]; intros s i k L H; [destruct s; [discriminate|cbn in L; lia]|].
  destruct s as [|b s]; [discriminate|]. cbn [indexUnescapedByte] in H. cbn [length] in *. destruct (b =? 92).
  - destruct s as [|d s]; [discriminate|]. cbn [length] in *. apply IH in H; lia.
  - destruct (b =? c); [injection H as <-; lia|]. apply IH in H; lia.
Qed.
Lemma alternatives_fine run pattern closing : (closing <= length pattern)%nat -> forall fuel p, (p <= closing)%nat -> (closing - p < fuel)%nat ->
  (forall alt, (length alt <= closing - p)%nat -> fine (run alt)) -> fine (alternatives fuel run pattern p closing).
Proof.
  intros Lc. induction fuel as [|fuel IH]; intros p Lp Fu R; [lia|]. cbn [alternatives]. unfold between.
  apply Nat.leb_le in Lp as Lp'. apply Nat.leb_le in Lc as Lc'. rewrite Lp', Lc'. cbn [andb].
  assert (length (firstn (closing - p) (skipn p pattern)) = closing - p)%nat as LS by (rewrite firstn_length, skipn_length; lia).
  destruct (indexNextAlt (firstn (closing - p) (skipn p pattern)) 0 1) as [comma|] eqn:E; [|apply R; lia].
  apply (nextalt_bound _ _ _ _ _ (le_n _)) in E. rewrite LS in E.
  assert (fine (run (firstn comma (firstn (closing - p) (skipn p pattern))))) as F by (apply R; rewrite firstn_length; lia).
  destruct (run (firstn comma (firstn (closing - p) (skipn p pattern)))); auto. apply IH; [lia|lia|]. intros alt La. apply R. lia.
Qed.
Lemma zero_fine : forall fuel s, (length s < fuel)%nat -> fine (isZeroLengthPattern fuel s).
Proof.
  induction fuel as [|fuel IH]; intros s L; [lia|]. cbn [isZeroLengthPattern].
  destruct (is_str s [] || is_str s [42] || is_str s [42; 42] || is_str s [47; 42; 42] || is_str s [42; 42; 47] || is_str s [47; 42; 42; 47]) eqn:Z; [split; discriminate|].
  destruct s as [|c s]; [discriminate Z|]. destruct (c =? 123).
  - destruct (indexMatchedClosingAlt s 0 1) as [k|] eqn:E; [|split; discriminate]. apply (closealt_bound _ _ _ _ _ (le_n _)) in E. cbn [length] in *.
    apply alternatives_fine; [cbn [length]; lia|lia|lia|]. intros alt La. unfold from. cbn [length].
    destruct (Nat.leb_spec (S (S k)) (S (length s))) as [Q|Q]; [|lia]. apply IH. rewrite app_length, skipn_length. cbn [length]. lia.
  - pose proof (doValidate_total (c :: s)) as V. destruct (doValidatePattern (c :: s)) as [[|]|]; [split; discriminate|split; discriminate|congruence].
Qed.

(** * Progress of the loop *)
Definition inert (name : list Z) (st : option (nat * nat)) : Prop := match st with None => True | Some (_, sn) => fst (decode_rune (skipn sn name)) = 47 end.
Definition dval (ds : option (nat * nat)) : nat := match ds with None => 0 | Some (dp, dn) => dp + dn end%nat.
Definition wfst (pat name : list Z) (ds st : option (nat * nat)) (pi ni v : nat) : Prop :=
  (pi <= length pat)%nat /\ (ni <= length name)%nat /\ (v <= pi + ni)%nat /\
  (forall dp dn, ds = Some (dp, dn) -> (dp <= pi)%nat /\ (dn <= ni)%nat) /\
  (inert name st \/ exists sp sn, st = Some (sp, sn) /\ (sp <= pi)%nat /\ (sn <= ni)%nat /\ v = (sp + sn)%nat /\
     forall dp dn, ds = Some (dp, dn) -> (dp <= sp)%nat /\ (dn <= sn)%nat).
Definition wf (pat name : list Z) (s : mstate) (v : nat) : Prop := wfst pat name (doublestar s) (star s) (patIdx s) (nameIdx s) v.
Definition measure (pat name : list Z) (s : mstate) (v : nat) : nat :=
  let D := (length pat + length name)%nat in
  ((D - dval (doublestar s)) * ((D + 1) * (D + 1)) + (D - v) * (D + 1) + (D - (patIdx s + nameIdx s)))%nat.

Lemma lex_less D a a' b b' c c' : (a' + 1 <= a -> b' <= D -> c' <= D ->
  a' * ((D + 1) * (D + 1)) + b' * (D + 1) + c' < a * ((D + 1) * (D + 1)) + b * (D + 1) + c)%nat.
Proof.
  intros A Hb Hc. pose proof (Nat.mul_le_mono_r _ _ ((D + 1) * (D + 1)) A) as A'. pose proof (Nat.mul_le_mono_r _ _ (D + 1) Hb) as B'.
  replace ((a' + 1) * ((D + 1) * (D + 1)))%nat with (a' * ((D + 1) * (D + 1)) + (D * (D + 1) + (D + 1)))%nat in A' by lia. lia.
Qed.
Lemma lex_most D a b c : (a <= D -> b <= D -> c <= D -> a * ((D + 1) * (D + 1)) + b * (D + 1) + c < (D + 1) * ((D + 1) * (D + 1)))%nat.
Proof.
  intros A Hb Hc. pose proof (lex_less D (D + 1) a 0 b 0 c ltac:(lia) Hb Hc). lia.
Qed.

Section Total.
Variable rec : list Z -> list Z -> option (nat * nat) -> option (nat * nat) -> nat -> nat -> pres.
Variable pat name : list Z.
Hypothesis REC : forall pat' ds st pi ni v, (length pat' < length pat)%nat -> wfst pat' name ds st pi ni v -> fine (rec pat' name ds st pi ni).
(** What a pass over the switch can do. *)
Inductive moves (s : mstate) : mstep -> Prop :=
| mv_return r : fine r -> moves s (Return r)
| mv_break p b : (p <= length pat)%nat -> moves s (Break (MS p (nameIdx s) b (doublestar s) (star s)))
| mv_one p i b : (patIdx s < p <= length pat)%nat -> (nameIdx s <= i <= length name)%nat -> moves s (Continue (MS p i b (doublestar s) (star s)))
| mv_star p : (patIdx s < p <= length pat)%nat -> moves s (Continue (MS p (nameIdx s) false (doublestar s) (Some (p, nameIdx s))))
| mv_dirs p : (patIdx s < p <= length pat)%nat -> moves s (Continue (MS p (nameIdx s) true (Some (p, nameIdx s)) None)).
Lemma switch_moves s v : wf pat name s v -> (nameIdx s < length name)%nat -> moves s (match_switch rec pat name s).
Proof.
  intros W L. unfold match_switch. destruct W as (W1 & W2 & W3 & W4 & W5).
  assert (moves s (Break s)) as BS by (destruct s; apply (mv_break (MS _ _ _ _ _)); exact W1).
  destruct (skipn (patIdx s) pat) as [|c rest] eqn:X; [exact BS|].
  assert (length (skipn (patIdx s) pat) = length (c :: rest)) as LE by now rewrite X. rewrite skipn_length in LE. cbn [length] in LE.
  assert (nameIdx s + snd (decode_rune (skipn (nameIdx s) name)) <= length name)%nat as NB.
  { destruct (skipn (nameIdx s) name) as [|d u] eqn:Y; [cbn; lia|]. pose proof (decode_width (d :: u) ltac:(discriminate)) as V. assert (length (skipn (nameIdx s) name) = length (d :: u)) as LF by now rewrite Y. rewrite skipn_length in LF. lia. }
  destruct (c =? 42).
  { destruct rest as [|d rest']; [apply mv_star; lia|]. cbn [length] in LE. destruct (d =? 42); [|apply mv_star; lia]. destruct (startOfSegment s); [|apply mv_star; lia].
    destruct rest' as [|e rest']; [apply mv_return; split; discriminate|]. pose proof (decode_width (e :: rest') ltac:(discriminate)) as V. destruct (decode_rune (e :: rest')) as [q w]. cbn [snd length] in *.
    destruct (q =? 47); [apply mv_dirs; lia|apply mv_star; lia]. }
  destruct (c =? 63).
  { destruct (decode_rune (skipn (nameIdx s) name)) as [q w]. cbn [snd] in NB. destruct (q =? 47); [apply mv_break; lia|apply mv_one; lia]. }
  destruct (c =? 91).
  { destruct rest as [|b rest']; [apply mv_return; split; discriminate|]. cbn [length] in LE. destruct (decode_rune (skipn (nameIdx s) name)) as [q w]. cbn [snd] in NB. cbn beta iota zeta.
    set (p := if (b =? 33) || (b =? 94) then (patIdx s + 2)%nat else (patIdx s + 1)%nat).
    assert (patIdx s < p <= length pat)%nat as Lp by (subst p; destruct ((b =? 33) || (b =? 94)); lia).
    destruct (skipn p pat) as [|b' s']; [apply mv_return; split; discriminate|]. destruct (b' =? 93); [apply mv_return; split; discriminate|].
    destruct (class_total pat q (S (length pat)) p MaxRune ltac:(lia) ltac:(lia)) as (m & p' & -> & Lp'). cbn beta iota.
    destruct (eqb m ((b =? 33) || (b =? 94))).
    - destruct (length pat <=? p')%nat; [apply mv_return; split; discriminate|]. apply mv_break. lia.
    - unfold from. destruct (Nat.leb_spec p' (length pat)) as [Q|Q]; [|lia]. destruct (indexUnescapedByte (skipn p' pat) 93 0) as [k|] eqn:E; [|apply mv_return; split; discriminate].
      apply (unescaped_bound _ _ _ _ _ (le_n _)) in E. rewrite skipn_length in E. apply mv_one; lia. }
  destruct (c =? 123).
  { destruct (indexMatchedClosingAlt rest 0 1) as [k|] eqn:E; [|apply mv_return; split; discriminate]. apply (closealt_bound _ _ _ _ _ (le_n _)) in E. apply mv_return.
    apply alternatives_fine; [lia|lia|lia|]. intros alt La. unfold from. destruct (Nat.leb_spec (S (k + (patIdx s + 1))) (length pat)) as [Q|Q]; [|lia].
    apply (REC _ _ _ _ _ v).
    - rewrite !app_length, firstn_length, skipn_length. lia.
    - split; [rewrite !app_length, firstn_length; lia|]. auto. }
  assert (exists p, (if c =? 92 then (patIdx s + 1)%nat else patIdx s) = p /\ (patIdx s <= p <= length pat)%nat) as (p & -> & Lp) by (eexists; split; [reflexivity|]; destruct (c =? 92); lia).
  destruct (skipn p pat) as [|d u] eqn:Y; [apply mv_return; split; discriminate|].
  pose proof (decode_width (d :: u) ltac:(discriminate)) as V. assert (length (skipn p pat) = length (d :: u)) as LF by now rewrite Y. rewrite skipn_length in LF.
  destruct (decode_rune (d :: u)) as [q w]. cbn [snd] in V. destruct (decode_rune (skipn (nameIdx s) name)) as [q2 w2]. cbn [snd] in NB. destruct (q =? q2); [apply mv_one; lia|].
  cbv zeta. apply mv_break. destruct p as [|p']; [lia|]. destruct (nth_error pat p') as [e|]; [|lia]. destruct (e =? 92); lia.
Qed.
Lemma loop_fine : forall fuel s v, wf pat name s v -> (measure pat name s v < fuel)%nat -> fine (match_loop rec pat name fuel s).
Proof.
  induction fuel as [|fuel IH]; intros s v W M; [lia|]. cbn [match_loop].
  destruct (Nat.ltb_spec (nameIdx s) (length name)) as [L|L].
  - pose proof (switch_moves s v W L) as MV. destruct W as (W1 & W2 & W3 & W4 & W5). unfold measure in M. set (D := (length pat + length name)%nat) in *.
    assert (dval (doublestar s) <= patIdx s + nameIdx s)%nat as DV. { destruct (doublestar s) as [[dp dn]|]; [|cbn; lia]. destruct (W4 dp dn eq_refl). cbn. lia. }
    inversion MV as [r F E|p b Lp E|p i b Lp Li E|p Lp E|p Lp E]; subst.
    + exact F.
    + unfold match_backtrack. cbn [star doublestar patIdx nameIdx].
      set (s1 := MS p (nameIdx s) b (doublestar s) (star s)).
      assert (fine (match_fail pat s1)) as FF.
      { unfold match_fail. destruct (patIdx s1 <? length pat)%nat; [|split; discriminate]. pose proof (doValidate_total (skipn (patIdx s1) pat)) as VT. destruct (doValidatePattern _) as [[|]|]; [split; discriminate|split; discriminate|congruence]. }
      assert (inert name (star s) -> fine (match (match doublestar s with Some (dp, dn) => match next_segment (S (length name)) name dn with
          Some i => Continue (MS dp i true (Some (dp, i)) (star s)) | None => Return (match_fail pat s1) end | None => Return (match_fail pat s1) end) with Return r => r | Continue st'' => match_loop rec pat name fuel st'' | Break _ => PPanic end)) as DD.
      { intros IN. destruct (doublestar s) as [[dp dn]|] eqn:DS; [|exact FF]. pose proof (next_segment_ok name (S (length name)) dn ltac:(lia)) as NS. destruct (next_segment (S (length name)) name dn) as [j|]; [|exact FF].
        destruct NS as [Lj _]. destruct (W4 dp dn eq_refl) as [D1 D2]. apply (IH _ 0%nat).
        - split; [cbn; lia|]. split; [cbn; lia|]. split; [lia|]. cbn [doublestar star patIdx nameIdx]. split; [|now left]. intros dp' dn' E'. injection E' as <- <-. lia.
        - unfold measure. cbn [doublestar star patIdx nameIdx dval]. fold D. cbn [dval] in M.
          assert ((D - (dp + j)) + 1 <= D - (dp + dn))%nat as LT by (unfold D; lia).
          eapply Nat.lt_le_trans; [apply (lex_less D _ _ (D - v) _ (D - (patIdx s + nameIdx s)) _ LT); lia|]. apply Nat.lt_succ_r. exact M. }
      destruct (star s) as [[sp sn]|] eqn:SS; [|apply DD; exact I].
      destruct (decode_rune (skipn sn name)) as [q w] eqn:DQ. destruct (q =? 47) eqn:Q47; [apply DD; cbn [inert]; rewrite DQ; now apply Z.eqb_eq|].
      destruct W5 as [IN|(sp' & sn' & E' & S1 & S2 & S3 & S4)]; [cbn [inert] in IN; rewrite DQ in IN; cbn in IN; subst q; discriminate|]. injection E' as <- <-.
      assert (1 <= w <= length name - sn)%nat as Ww.
      { destruct (skipn sn name) as [|d u] eqn:Y; [assert (length (skipn sn name) = 0%nat) as Z0 by (now rewrite Y); rewrite skipn_length in Z0; lia|]. pose proof (decode_width (d :: u) ltac:(discriminate)) as V. rewrite DQ in V. cbn [snd] in V. assert (length (skipn sn name) = length (d :: u)) as LF by now rewrite Y. rewrite skipn_length in LF. lia. }
      apply (IH _ (sp + (sn + w))%nat).
      * split; [cbn; lia|]. split; [cbn; lia|]. split; [cbn; lia|]. cbn [doublestar star patIdx nameIdx]. split; [intros dp dn E'; destruct (S4 dp dn E'); lia|].
        right. exists sp, (sn + w)%nat. repeat split; auto; try lia; destruct (S4 _ _ H); lia.
      * unfold measure. cbn [doublestar star patIdx nameIdx]. fold D.
        assert ((D - (sp + (sn + w))) + 1 <= D - v)%nat as LT by (unfold D; lia).
        assert (((D - (sp + (sn + w))) + 1) * (D + 1) <= (D - v) * (D + 1))%nat as LM by (apply Nat.mul_le_mono_r; exact LT). lia.
    + apply (IH _ v).
      * split; [cbn; lia|]. split; [cbn; lia|]. split; [cbn; lia|]. cbn [doublestar star patIdx nameIdx]. split; [intros dp dn E'; destruct (W4 dp dn E'); lia|].
        destruct W5 as [IN|(sp' & sn' & E' & S1 & S2 & S3 & S4)]; [now left|right]. exists sp', sn'. repeat split; auto; try lia; destruct (S4 _ _ H); lia.
      * unfold measure. cbn [doublestar star patIdx nameIdx]. fold D. assert (D - (p + i) < D - (patIdx s + nameIdx s))%nat by (unfold D; lia). lia.
    + apply (IH _ (p + nameIdx s)%nat).
      * split; [cbn; lia|]. split; [cbn; lia|]. split; [cbn; lia|]. cbn [doublestar star patIdx nameIdx]. split; [intros dp dn E'; destruct (W4 dp dn E'); lia|].
        right. exists p, (nameIdx s). repeat split; auto; try lia; destruct (W4 _ _ H); lia.
      * unfold measure. cbn [doublestar star patIdx nameIdx]. fold D.
        assert ((D - (p + nameIdx s)) + 1 <= D - v)%nat as LT by (unfold D; lia).
        assert (((D - (p + nameIdx s)) + 1) * (D + 1) <= (D - v) * (D + 1))%nat as LM by (apply Nat.mul_le_mono_r; exact LT). lia.
    + apply (IH _ 0%nat).
      * split; [cbn; lia|]. split; [cbn; lia|]. split; [cbn; lia|]. cbn [doublestar star patIdx nameIdx]. split; [|now left]. intros dp dn E'. injection E' as <- <-. lia.
      * unfold measure. cbn [doublestar star patIdx nameIdx dval]. fold D.
        assert ((D - (p + nameIdx s)) + 1 <= D - dval (doublestar s))%nat as LT by (unfold D; lia).
        eapply Nat.lt_le_trans; [apply (lex_less D _ _ (D - v) _ (D - (patIdx s + nameIdx s)) _ LT); lia|]. apply Nat.lt_succ_r. exact M.
  - destruct W as (W1 & _). unfold from. destruct (Nat.leb_spec (patIdx s) (length pat)) as [Q|Q]; [|lia]. apply zero_fine. lia.
Qed.
End Total.

Lemma doMatch_fine : forall depth pat name ds st pi ni v, (length pat < depth)%nat -> wfst pat name ds st pi ni v -> fine (doMatch depth pat name ds st pi ni).
Proof.
  induction depth as [|depth IH]; intros pat name ds st pi ni v L W; [lia|]. cbn [doMatch].
  apply (loop_fine (doMatch depth) pat name) with (v := v); [|exact W|].
  - intros pat' ds' st' pi' ni' v' L' W'. apply (IH _ _ _ _ _ _ v'); [lia|exact W'].
  - unfold measure, loop_fuel. cbn [doublestar star patIdx nameIdx]. set (D := (length pat + length name)%nat).
    eapply Nat.lt_le_trans; [apply lex_most; lia|].
    replace (length pat + length name + 2)%nat with (D + 2)%nat by reflexivity. rewrite Nat.mul_assoc. repeat apply Nat.mul_le_mono; lia.
Qed.
Lemma Match_fine p n : fine (Match p n).
Proof.
  unfold Match. apply (doMatch_fine _ _ _ _ _ _ _ 0%nat); [lia|]. split; [lia|]. split; [lia|]. split; [lia|]. split; [discriminate|]. left. exact I.
Qed.
