(** The matcher finds what the pattern means. *)
From Coq Require Import ZArith List Bool Lia.
From Verif Require Import Pattern PatternSpec.
Import ListNotations.
Open Scope Z_scope.

(** * Decoding characters *)
Lemma decode_width s : s <> [] -> (1 <= snd (decode_rune s) <= length s)%nat.
Proof.
  destruct s as [|b0 [|b1 [|b2 [|b3 s]]]]; intros N; [congruence| | | |]; unfold decode_rune;
    repeat match goal with |- context [if ?c then _ else _] => destruct c end; cbn [snd length]; lia.
Qed.
Lemma decode_nil : decode_rune [] = (RuneError, 0%nat). Proof. reflexivity. Qed.
Lemma decode_ascii c s : c < 128 -> decode_rune (c :: s) = (c, 1%nat).
Proof. intros H. unfold decode_rune. apply Z.ltb_lt in H. now rewrite H. Qed.
Lemma decode_high c s : 128 <= c -> 128 <= fst (decode_rune (c :: s)) /\ Forall (fun b => 128 <= b) (firstn (snd (decode_rune (c :: s))) (c :: s)).
Proof.
  intros H. destruct s as [|b1 [|b2 [|b3 s]]]; unfold decode_rune;
    repeat match goal with |- context [if ?b then _ else _] => let E := fresh in destruct b eqn:E end;
    repeat match goal with H : _ && _ = true |- _ => apply andb_prop in H; destruct H end; unfold cont in *;
    repeat match goal with H : context [if ?b then _ else _] |- _ => let E := fresh in destruct b eqn:E end;
    repeat match goal with H : _ && _ = true |- _ => apply andb_prop in H; destruct H end;
    repeat match goal with H : (_ <=? _) = true |- _ => apply Z.leb_le in H | H : (_ <? _) = true |- _ => apply Z.ltb_lt in H | H : (_ <? _) = false |- _ => apply Z.ltb_ge in H | H : (_ =? _) = true |- _ => apply Z.eqb_eq in H | H : (_ =? _) = false |- _ => apply Z.eqb_neq in H end;
    cbn [fst snd firstn]; (split; [unfold RuneError; lia|repeat (apply Forall_cons; [lia|]); apply Forall_nil]).
Qed.
(** The first character and the first byte. *)
Lemma decode_low s r w : decode_rune s = (r, w) -> r < 128 -> exists s', s = r :: s' /\ w = 1%nat.
Proof.
  intros E L. destruct s as [|c s']; [injection E as <- <-; unfold RuneError in L; lia|].
  destruct (Z.lt_ge_cases c 128) as [H|H].
  - rewrite decode_ascii in E by assumption. injection E as <- <-. eauto.
  - pose proof (proj1 (decode_high c s' H)) as D. rewrite E in D. cbn in D. lia.
Qed.
Lemma decode_byte c s : c < 128 \/ fst (decode_rune (c :: s)) < 128 -> fst (decode_rune (c :: s)) = c /\ snd (decode_rune (c :: s)) = 1%nat.
Proof.
  intros [H|H]; [now rewrite decode_ascii|]. destruct (decode_rune (c :: s)) as [r w] eqn:E. cbn [fst snd] in *. destruct (decode_low _ _ _ E H) as (s' & X & ->). injection X as -> _. auto.
Qed.

(** * Strings as characters *)
Lemma runes_enough n s : (length s <= n)%nat -> runes_n n s = runes s.
Proof.
  unfold runes. intros H. remember (length s) as k eqn:K.
  assert (forall m k s, (length s <= m)%nat -> (length s <= k)%nat -> runes_n m s = runes_n k s) as Q.
  { clear. induction m as [|m IH]; intros k s Hm Hk; [destruct s; [destruct k; reflexivity|cbn in Hm; lia]|].
    destruct s as [|b s]; [destruct k; reflexivity|]. destruct k as [|k]; [cbn in Hk; lia|].
    cbn [runes_n]. f_equal. pose proof (decode_width (b :: s) ltac:(discriminate)) as D. apply IH; rewrite skipn_length; lia. }
  apply Q; lia.
Qed.
Lemma runes_cons s : s <> [] -> runes s = fst (decode_rune s) :: runes (skipn (snd (decode_rune s)) s).
Proof.
  intros N. destruct s as [|b s]; [congruence|]. unfold runes at 1. cbn [length runes_n]. f_equal. apply runes_enough.
  pose proof (decode_width (b :: s) N) as D. rewrite skipn_length. cbn [length] in *. lia.
Qed.
Lemma runes_nil s : runes s = [] -> s = [].
Proof. intros E. destruct s as [|b s]; [reflexivity|]. rewrite runes_cons in E by discriminate. discriminate. Qed.
Lemma runes_inv s r rs : runes s = r :: rs -> exists w, decode_rune s = (r, w) /\ runes (skipn w s) = rs /\ s <> [] /\ (1 <= w <= length s)%nat.
Proof.
  intros E. assert (s <> []) as N by (destruct s; discriminate). rewrite runes_cons in E by assumption. injection E as E1 E2.
  pose proof (decode_width s N). destruct (decode_rune s) as [r' w]. cbn in *. subst. exists w. auto.
Qed.
Lemma runes_low s r rs : runes s = r :: rs -> r < 128 -> exists s', s = r :: s' /\ runes s' = rs.
Proof. intros E L. destruct (runes_inv _ _ _ E) as (w & D & R & N & _). destruct (decode_low _ _ _ D L) as (s' & -> & ->). eauto. Qed.
Lemma runes_ascii c s : c < 128 -> runes (c :: s) = c :: runes s.
Proof. intros L. rewrite runes_cons by discriminate. now rewrite decode_ascii. Qed.
Lemma runes_hd s c : c < 128 -> c <> 0 -> hd 0 (runes s) = c <-> hd 0 s = c.
Proof.
  intros L NZ. destruct s as [|b s]; [reflexivity|]. rewrite runes_cons by discriminate. cbn [hd].
  split; intros E.
  - destruct (decode_byte b s) as [X _]; [right; lia|]. congruence.
  - subst b. now rewrite decode_ascii.
Qed.
Lemma skipn_plus {A} i j (l : list A) : skipn (i + j) l = skipn j (skipn i l).
Proof. revert l; induction i; intros [|x l]; cbn; auto; now rewrite skipn_nil. Qed.

(** * Character classes *)
Lemma index_high s c i k : Forall (fun b => 128 <= b) (firstn k s) -> (k <= length s)%nat -> c < 128 ->
  indexUnescapedByte s c i = indexUnescapedByte (skipn k s) c (i + k).
Proof.
  revert s i. induction k as [|k IH]; intros s i F L C; [now rewrite Nat.add_0_r|].
  destruct s as [|b s]; [cbn in L; lia|]. cbn [firstn] in F. inversion F as [|? ? Hb F']; subst. cbn [skipn].
  transitivity (indexUnescapedByte s c (S i)); [|rewrite (IH s (S i)); auto; [f_equal; lia|cbn in L; lia]].
  cbn [indexUnescapedByte]. assert (b =? c = false) as E by (apply Z.eqb_neq; lia).
  destruct (Z.eq_dec b 92) as [->|N]; [lia|].
  apply Z.eqb_neq in N. now rewrite N, E.
Qed.

Lemma pass s c rs i : runes s = c :: rs -> c <> 93 -> c <> 92 ->
  exists w, indexUnescapedByte s 93 i = indexUnescapedByte (skipn w s) 93 (i + w) /\ runes (skipn w s) = rs /\ (1 <= w <= length s)%nat.
Proof.
  intros R N1 N2. destruct (runes_inv s c rs R) as (w & D & R' & NE & W). exists w. split; [|auto].
  destruct s as [|b s]; [congruence|]. destruct (Z.lt_ge_cases b 128) as [L|L].
  - rewrite decode_ascii in D by assumption. injection D as <- <-. cbn [skipn indexUnescapedByte].
    apply Z.eqb_neq in N1, N2. rewrite N1, N2. f_equal; lia.
  - apply index_high; [|lia|lia]. pose proof (proj2 (decode_high b s L)) as F. rewrite D in F. exact F.
Qed.
Lemma pass_esc s c rs i : runes s = c :: rs ->
  exists w, indexUnescapedByte (92 :: s) 93 i = indexUnescapedByte (skipn w s) 93 (S i + w) /\ runes (skipn w s) = rs /\ (1 <= w <= length s)%nat.
Proof.
  intros R. destruct (runes_inv s c rs R) as (w & D & R' & NE & W). exists w. split; [|auto].
  destruct s as [|b s]; [congruence|]. destruct (Z.lt_ge_cases b 128) as [L|L].
  - rewrite decode_ascii in D by assumption. injection D as <- <-. cbn [skipn indexUnescapedByte]. cbn [Z.eqb Pos.eqb]. f_equal; lia.
  - pose proof (proj2 (decode_high b s L)) as F. rewrite D in F. cbn [snd] in F.
    destruct w as [|w]; [lia|]. cbn [firstn] in F. inversion F as [|? ? _ F']; subst. cbn [indexUnescapedByte skipn]. cbn [Z.eqb Pos.eqb].
    rewrite (index_high s 93 (S (S i)) w F'); [f_equal; lia|cbn in W; lia|lia].
Qed.
Lemma klass_find s last l rest i : klass last (runes s) l rest ->
  exists k, indexUnescapedByte s 93 i = Some (i + k)%nat /\ (k < length s)%nat /\ runes (skipn (k + 1) s) = rest.
Proof.
  intros H. remember (runes s) as rs eqn:E. revert s i E. induction H as [last rest|lo hi rs l rest N1 N2 H IH|lo hi rs l rest H IH|last c rs l rest N1 N2 M Hy H IH|last c rs l rest M H IH]; intros s i E.
  - destruct (runes_low s _ _ (eq_sym E) ltac:(lia)) as (s' & -> & R). exists 0%nat. split; [cbn; f_equal; lia|]. split; [cbn; lia|exact R].
  - destruct (runes_low s _ _ (eq_sym E) ltac:(lia)) as (s' & -> & R).
    change (indexUnescapedByte (45 :: s') 93 i) with (indexUnescapedByte s' 93 (S i)).
    destruct (pass s' hi rs (S i) R N1 N2) as (w & X & Y & L). rewrite X. destruct (IH (skipn w s') (S i + w)%nat (eq_sym Y)) as (k & K1 & K2 & K3).
    exists (S w + k)%nat. rewrite K1. split; [f_equal; lia|]. rewrite skipn_length in K2. split; [cbn; lia|].
    replace (S w + k + 1)%nat with (S (w + (k + 1))) by lia. cbn [skipn]. now rewrite skipn_plus.
  - destruct (runes_low s _ _ (eq_sym E) ltac:(lia)) as (s' & -> & R). destruct (runes_low s' _ _ R ltac:(lia)) as (s2 & -> & R2).
    change (indexUnescapedByte (45 :: 92 :: s2) 93 i) with (indexUnescapedByte (92 :: s2) 93 (S i)).
    destruct (pass_esc s2 hi rs (S i) R2) as (w & X & Y & L). rewrite X. destruct (IH (skipn w s2) (S (S i) + w)%nat (eq_sym Y)) as (k & K1 & K2 & K3).
    exists (S (S w) + k)%nat. rewrite K1. split; [f_equal; lia|]. rewrite skipn_length in K2. split; [cbn; lia|].
    replace (S (S w) + k + 1)%nat with (S (S (w + (k + 1)))) by lia. cbn [skipn]. now rewrite skipn_plus.
  - destruct (pass s c rs i (eq_sym E) N1 N2) as (w & X & Y & L). rewrite X. destruct (IH (skipn w s) (i + w)%nat (eq_sym Y)) as (k & K1 & K2 & K3).
    exists (w + k)%nat. rewrite K1. split; [f_equal; lia|]. rewrite skipn_length in K2. split; [lia|].
    replace (w + k + 1)%nat with (w + (k + 1))%nat by lia. now rewrite skipn_plus.
  - destruct (runes_low s _ _ (eq_sym E) ltac:(lia)) as (s2 & -> & R2).
    destruct (pass_esc s2 c rs i R2) as (w & X & Y & L). rewrite X. destruct (IH (skipn w s2) (S i + w)%nat (eq_sym Y)) as (k & K1 & K2 & K3).
    exists (S w + k)%nat. rewrite K1. split; [f_equal; lia|]. rewrite skipn_length in K2. split; [cbn; lia|].
    replace (S w + k + 1)%nat with (S (w + (k + 1))) by lia. cbn [skipn]. now rewrite skipn_plus.
Qed.

Definition last_of (last : option Z) : Z := match last with Some c => c | None => MaxRune end.
Lemma skipn_cons_at {A} p (l : list A) x s : skipn p l = x :: s -> (p < length l)%nat /\ skipn (p + 1) l = s.
Proof.
  intros E. split.
  - destruct (Nat.lt_ge_cases p (length l)); [assumption|]. rewrite skipn_all2 in E by assumption. discriminate.
  - now rewrite skipn_plus, E.
Qed.
Lemma first_byte s c rs d : runes s = c :: rs -> d < 128 -> c <> d -> exists b s', s = b :: s' /\ (b =? d) = false.
Proof.
  intros R L N. destruct (runes_inv _ _ _ R) as (w & D & _ & NE & _). destruct s as [|b s']; [congruence|]. exists b, s'. split; [reflexivity|].
  apply Z.eqb_neq. intros ->. rewrite decode_ascii in D by assumption. congruence.
Qed.
Lemma klass_loop pat r : forall fuel p last l rest, klass last (runes (skipn p pat)) l rest -> (length pat - p < fuel)%nat ->
  (match last with Some c => c < MaxRune | None => True end) ->
  exists p', class_loop fuel pat r p (last_of last) = Some (in_ranges l r, p') /\ (p' <= length pat)%nat /\
    exists last' l', klass last' (runes (skipn p' pat)) l' rest.
Proof.
  induction fuel as [|fuel IH]; intros p last l rest H Fu LL; [lia|].
  assert (forall p2 l2 lo hi last2, klass last2 (runes (skipn p2 pat)) l2 rest -> (p < p2 <= length pat)%nat ->
    (match last2 with Some c => c < MaxRune | None => True end) ->
    exists p', (if (lo <=? r) && (r <=? hi) then Some (true, p2) else class_loop fuel pat r p2 (last_of last2)) = Some (in_ranges ((lo, hi) :: l2) r, p') /\
      (p' <= length pat)%nat /\ exists last' l', klass last' (runes (skipn p' pat)) l' rest) as Next.
  { intros p2 l2 lo hi last2 K P L2. cbn [in_ranges existsb fst snd]. destruct ((lo <=? r) && (r <=? hi)); cbn [orb].
    - exists p2. split; [reflexivity|]. split; [lia|eauto].
    - apply IH; auto. lia. }
  cbn [class_loop]. remember (runes (skipn p pat)) as rs eqn:E. symmetry in E.
  destruct H as [last rest|lo hi rs l rest N1 N2 H|lo hi rs l rest H|last c rs l rest N1 N2 M Hy H|last c rs l rest M H].
  - destruct (runes_low _ _ _ E ltac:(lia)) as (s' & X & R). rewrite X. cbn [Z.eqb Pos.eqb in_ranges existsb].
    destruct (skipn_cons_at _ _ _ _ X) as [Lp _]. exists p. split; [reflexivity|]. split; [lia|]. exists None, []. rewrite X, <- R, runes_ascii by lia. apply k_end.
  - destruct (runes_low _ _ _ E ltac:(lia)) as (s1 & X & R1). destruct (skipn_cons_at _ _ _ _ X) as [Lp X1].
    rewrite X, decode_ascii by lia. cbn beta iota zeta. rewrite X1.
    destruct (first_byte s1 hi rs 93 R1 ltac:(lia) N1) as (b & s2 & -> & B1). destruct (first_byte _ hi rs 92 R1 ltac:(lia) N2) as (b' & s2' & EE & B2). injection EE as <- <-.
    cbn [last_of]. apply Z.ltb_lt in LL. rewrite LL, B1, B2. cbn [Z.eqb Pos.eqb andb negb]. rewrite X1.
    destruct (runes_inv _ _ _ R1) as (w & D & R2 & _ & W). rewrite D. cbn beta iota zeta.
    apply (Next (p + 1 + w)%nat l lo hi None); [now rewrite skipn_plus, X1, R2| |exact I]. assert (length (skipn (p + 1) pat) = length (b :: s2)) as LE by now rewrite X1. rewrite skipn_length in LE. lia.
  - destruct (runes_low _ _ _ E ltac:(lia)) as (s1 & X & R1). destruct (skipn_cons_at _ _ _ _ X) as [Lp X1].
    rewrite X, decode_ascii by lia. cbn beta iota zeta. rewrite X1. destruct (runes_low _ _ _ R1 ltac:(lia)) as (s2 & -> & R2).
    destruct (skipn_cons_at _ _ _ _ X1) as [Lp1 X2].
    cbn [last_of]. apply Z.ltb_lt in LL. rewrite LL. cbn [Z.eqb Pos.eqb andb negb]. replace (S (p + 1)) with (p + 1 + 1)%nat by lia. rewrite X2.
    destruct (runes_inv _ _ _ R2) as (w & D & R3 & _ & W). rewrite D. cbn beta iota zeta.
    apply (Next (p + 1 + 1 + w)%nat l lo hi None); [now rewrite skipn_plus, X2, R3| |exact I]. assert (length (skipn (p + 1 + 1) pat) = length s2) as LE by now rewrite X2. rewrite skipn_length in LE. lia.
  - destruct (first_byte _ c rs 93 E ltac:(lia) N1) as (b & s2 & X & B1). rewrite X in *. rewrite B1.
    destruct (runes_inv _ _ _ E) as (w & D & R2 & _ & W). rewrite D. cbn beta iota zeta. rewrite skipn_plus, X.
    assert (c =? 92 = false) as C92 by now apply Z.eqb_neq. rewrite C92.
    assert ((last_of last <? MaxRune) && (c =? 45) && negb (match skipn w (b :: s2) with [] => true | d :: _ => d =? 93 end) = false) as F.
    { destruct (c =? 45) eqn:C45; [|now rewrite andb_false_r]. apply Z.eqb_eq in C45. destruct (Hy C45) as [->|HH]; [reflexivity|].
      assert (hd 0 (skipn w (b :: s2)) = 93) as HB by (apply runes_hd; [lia|lia|now rewrite R2]). destruct (skipn w (b :: s2)) as [|d t]; [now rewrite andb_false_r|]. cbn in HB. subst d. now rewrite andb_false_r. }
    rewrite F, Nat.add_0_r.
    pose proof (Next (p + w)%nat l c c (Some c)) as Q. assert ((c <=? r) && (r <=? c) = (c =? r)) as EQ.
    { destruct (c =? r) eqn:EE; [apply Z.eqb_eq in EE; subst; rewrite Z.leb_refl; reflexivity|]. apply Z.eqb_neq in EE. apply andb_false_iff. rewrite !Z.leb_gt. lia. }
    rewrite EQ in Q. apply Q; auto; [now rewrite skipn_plus, X, R2|]. assert (length (skipn p pat) = length (b :: s2)) as LE by now rewrite X. rewrite skipn_length in LE. lia.
  - destruct (runes_low _ _ _ E ltac:(lia)) as (s1 & X & R1). destruct (skipn_cons_at _ _ _ _ X) as [Lp X1].
    rewrite X, decode_ascii by lia. cbn beta iota zeta. rewrite X1. cbn [Z.eqb Pos.eqb andb negb]. rewrite andb_false_r. cbn [andb].
    destruct (runes_inv _ _ _ R1) as (w & D & R2 & _ & W). rewrite D. cbn beta iota zeta.
    pose proof (Next (p + 1 + w)%nat l c c (Some c)) as Q. assert ((c <=? r) && (r <=? c) = (c =? r)) as EQ.
    { destruct (c =? r) eqn:EE; [apply Z.eqb_eq in EE; subst; rewrite Z.leb_refl; reflexivity|]. apply Z.eqb_neq in EE. apply andb_false_iff. rewrite !Z.leb_gt. lia. }
    rewrite EQ in Q. apply Q; auto; [now rewrite skipn_plus, X1, R2|]. assert (length (skipn (p + 1) pat) = length s1) as LE by now rewrite X1. rewrite skipn_length in LE. lia.
Qed.

(** * One pass over the switch *)
Definition step_ok (pat name : list Z) (st : mstate) (its : list item) (r : Z) (n : list Z) (o : mstep) : Prop :=
  match its with
  | [] => exists st', o = Break st' /\ doublestar st' = doublestar st /\ star st' = star st
  | Star :: its' => exists p, o = Continue (MS p (nameIdx st) false (doublestar st) (Some (p, nameIdx st))) /\ parses false (runes (skipn p pat)) its'
  | Dirs :: its' => exists p, o = Continue (MS p (nameIdx st) true (Some (p, nameIdx st)) None) /\ parses true (runes (skipn p pat)) its' /\ startOfSegment st = true
  | Rest :: its' => o = Return PYes /\ its' = []
  | i :: its' =>
    if takes i r then exists p w b, o = Continue (MS p (nameIdx st + w) b (doublestar st) (star st)) /\ parses b (runes (skipn p pat)) its' /\
      runes (skipn (nameIdx st + w) name) = n /\ (b = true -> i = Lit 47)
    else exists st', o = Break st' /\ doublestar st' = doublestar st /\ star st' = star st
  end.
Lemma class_step pat name st r n neg c rs l rest its p b rs0 :
  klass None (runes (skipn p pat)) l rest -> runes (skipn p pat) = c :: rs -> c <> 93 -> parses false rest its -> (p <= length pat)%nat ->
  skipn (patIdx st) pat = 91 :: b :: rs0 -> (b =? 33) || (b =? 94) = neg -> p = (if neg then patIdx st + 2 else patIdx st + 1)%nat ->
  runes (skipn (nameIdx st) name) = r :: n -> forall rec,
  step_ok pat name st (Class neg l :: its) r n (match_switch rec pat name st).
Proof.
  intros K E N93 P Lp X NG EP R rec. unfold match_switch. rewrite X. cbn [Z.eqb Pos.eqb]. cbn beta iota zeta.
  destruct (runes_inv _ _ _ R) as (w & D & Rn & NE & W). rewrite D. cbn beta iota zeta. rewrite NG, <- EP.
  destruct (first_byte _ c rs 93 E ltac:(lia) N93) as (b' & s' & X' & B'). rewrite X', B'.
  destruct (klass_loop pat r (S (length pat)) p None l rest K ltac:(lia) I) as (p' & CL & Lp' & Z). cbn [last_of] in CL. rewrite CL. cbn beta iota zeta.
  destruct Z as (last' & l' & K'). destruct (klass_find _ _ _ _ 0 K') as (k & I1 & I2 & I3). rewrite skipn_length in I2.
  assert (step_ok pat name st (Class neg l :: its) r n (match from pat p' with None => Return PPanic | Some s0 =>
    match indexUnescapedByte s0 93 0 with None => Return PBad | Some closing => Continue (MS (p' + closing + 1) (nameIdx st + w) false (doublestar st) (star st)) end end) \/ takes (Class neg l) r = false) as G.
  { destruct (takes (Class neg l) r) eqn:T; [left|now right]. unfold step_ok. rewrite T. unfold from. apply Nat.leb_le in Lp'. rewrite Lp', I1. cbn [Nat.add]. exists (p' + k + 1)%nat, w, false. split; [reflexivity|].
    split; [|split; [now rewrite skipn_plus|discriminate]]. replace (p' + k + 1)%nat with (p' + (k + 1))%nat by lia. rewrite skipn_plus, I3. exact P. }
  assert (takes (Class neg l) r = negb (eqb (in_ranges l r) neg)) as T by (cbn [takes]; destruct neg, (in_ranges l r); reflexivity).
  destruct (eqb (in_ranges l r) neg); [|destruct G as [G|G]; [exact G|rewrite T in G; discriminate]].
  unfold step_ok. rewrite T. cbn [negb]. destruct (Nat.leb_spec (length pat) p') as [Q|Q]; [lia|]. eexists. split; [reflexivity|]. cbn. auto.
Qed.
Lemma switch_ok rec pat name st its r n : parses (startOfSegment st) (runes (skipn (patIdx st) pat)) its ->
  runes (skipn (nameIdx st) name) = r :: n -> step_ok pat name st its r n (match_switch rec pat name st).
Proof.
  intros P R. remember (startOfSegment st) as sg eqn:SG. remember (runes (skipn (patIdx st) pat)) as rs eqn:E. symmetry in E.
  destruct (runes_inv _ _ _ R) as (w & D & Rn & NE & W).
  destruct P as [b|b c rs its NM P|b c rs its NC P|b rs its P|b c rs l rest its N1 N2 N3 K P|b n0 c rs l rest its Nn N1 K P|b rs its H P| |rs its P|b rs its Hb N47 P].
  - apply runes_nil in E. unfold match_switch. rewrite E. exists st. auto.
  - cbn [In] in NM. assert (c <> 42 /\ c <> 63 /\ c <> 91 /\ c <> 92 /\ c <> 123) as (M1 & M2 & M3 & M4 & M5) by (repeat split; intros ->; apply NM; tauto).
    destruct (runes_inv _ _ _ E) as (wp & DP & RP & NP & WP).
    assert (exists d s', skipn (patIdx st) pat = d :: s' /\ (d =? 42) = false /\ (d =? 63) = false /\ (d =? 91) = false /\ (d =? 92) = false /\ (d =? 123) = false) as (d & s' & X & Q1 & Q2 & Q3 & Q4 & Q5).
    { destruct (first_byte _ c rs 42 E ltac:(lia) M1) as (d & s' & X & Q1). exists d, s'. split; [exact X|]. rewrite X in E. split; [exact Q1|].
      repeat split; [destruct (first_byte _ c rs 63 E ltac:(lia) M2) as (? & ? & Y & Q)|destruct (first_byte _ c rs 91 E ltac:(lia) M3) as (? & ? & Y & Q)|destruct (first_byte _ c rs 92 E ltac:(lia) M4) as (? & ? & Y & Q)|destruct (first_byte _ c rs 123 E ltac:(lia) M5) as (? & ? & Y & Q)]; injection Y as <- <-; exact Q. }
    unfold match_switch. rewrite X, Q1, Q2, Q3, Q5, Q4. cbn beta iota zeta. rewrite X. rewrite <- X, DP, D. unfold step_ok. cbn [takes].
    destruct (c =? r) eqn:CR.
    + exists (patIdx st + wp)%nat, w, (c =? 47). split; [reflexivity|]. split; [rewrite skipn_plus, RP; exact P|]. split; [now rewrite skipn_plus|]. intros C47. apply Z.eqb_eq in C47. now subst.
    + eexists. split; [reflexivity|]. cbn. auto.
  - destruct (runes_low _ _ _ E ltac:(lia)) as (s1 & X & R1). destruct (skipn_cons_at _ _ _ _ X) as [Lp X1].
    destruct (runes_inv _ _ _ R1) as (wp & DP & RP & NP & WP).
    unfold match_switch. rewrite X. cbn [Z.eqb Pos.eqb]. cbn beta iota zeta. rewrite X1. destruct s1 as [|d s2]; [congruence|]. rewrite DP, D. unfold step_ok. cbn [takes].
    destruct (c =? r) eqn:CR.
    + apply Z.eqb_neq in NC. exists (patIdx st + 1 + wp)%nat, w, false. rewrite NC. split; [reflexivity|]. split; [rewrite skipn_plus, X1, RP; exact P|]. split; [now rewrite skipn_plus|discriminate].
    + eexists. split; [reflexivity|]. cbn. auto.
  - destruct (runes_low _ _ _ E ltac:(lia)) as (s1 & X & R1). destruct (skipn_cons_at _ _ _ _ X) as [Lp X1].
    unfold match_switch. rewrite X. cbn [Z.eqb Pos.eqb]. rewrite D. unfold step_ok. cbn [takes]. destruct (r =? 47); cbn [negb].
    + eexists. split; [reflexivity|]. cbn. auto.
    + exists (patIdx st + 1)%nat, w, false. split; [reflexivity|]. split; [rewrite X1, R1; exact P|]. split; [now rewrite skipn_plus|discriminate].
  - destruct (runes_low _ _ _ E ltac:(lia)) as (s1 & X & R1). destruct (skipn_cons_at _ _ _ _ X) as [Lp X1].
    destruct (first_byte s1 c rs 33 R1 ltac:(lia) N2) as (b1 & s2 & -> & B1). destruct (first_byte _ c rs 94 R1 ltac:(lia) N3) as (b' & s2' & EE & B2). injection EE as <- <-.
    apply (class_step pat name st r n false c rs l rest its (patIdx st + 1) b1 s2); auto; [now rewrite X1, R1|now rewrite X1|lia|now rewrite B1, B2].
  - destruct (runes_low _ _ _ E ltac:(lia)) as (s1 & X & R1). destruct (skipn_cons_at _ _ _ _ X) as [Lp X1].
    destruct (runes_low s1 _ _ R1 ltac:(lia)) as (s2 & -> & R2). destruct (skipn_cons_at _ _ _ _ X1) as [Lp1 X2].
    replace (patIdx st + 1 + 1)%nat with (patIdx st + 2)%nat in X2 by lia.
    apply (class_step pat name st r n true c rs l rest its (patIdx st + 2) n0 s2); auto; [now rewrite X2, R2|now rewrite X2|lia|destruct Nn; subst; reflexivity].
  - destruct (runes_low _ _ _ E ltac:(lia)) as (s1 & X & R1). destruct (skipn_cons_at _ _ _ _ X) as [Lp X1].
    unfold match_switch. rewrite X. cbn [Z.eqb Pos.eqb]. cbn beta iota zeta. unfold step_ok. exists (patIdx st + 1)%nat. split; [|rewrite X1, R1; exact P].
    destruct s1 as [|d s2]; [reflexivity|]. destruct (d =? 42) eqn:D42; [|reflexivity]. apply Z.eqb_eq in D42. subst d. exfalso. apply H. rewrite <- R1. now rewrite runes_ascii by lia.
  - destruct (runes_low _ _ _ E ltac:(lia)) as (s1 & X & R1). destruct (runes_low _ _ _ R1 ltac:(lia)) as (s2 & -> & R2). apply runes_nil in R2. subst s2.
    unfold match_switch. rewrite X. cbn [Z.eqb Pos.eqb]. cbn beta iota zeta. rewrite <- SG. split; reflexivity.
  - destruct (runes_low _ _ _ E ltac:(lia)) as (s1 & X & R1). destruct (runes_low _ _ _ R1 ltac:(lia)) as (s2 & -> & R2). destruct (runes_low _ _ _ R2 ltac:(lia)) as (s3 & -> & R3).
    unfold match_switch. rewrite X. cbn [Z.eqb Pos.eqb]. cbn beta iota zeta. rewrite <- SG. rewrite decode_ascii by lia. cbn [Z.eqb Pos.eqb].
    exists (patIdx st + 2 + 1)%nat. split; [reflexivity|]. split; [|auto]. rewrite <- Nat.add_assoc, skipn_plus, X. cbn [skipn Nat.add]. rewrite R3. exact P.
  - destruct (runes_low _ _ _ E ltac:(lia)) as (s1 & X & R1). destruct (runes_low _ _ _ R1 ltac:(lia)) as (s2 & -> & R2).
    unfold match_switch. rewrite X. cbn [Z.eqb Pos.eqb]. cbn beta iota zeta. rewrite <- SG. exists (patIdx st + 2)%nat. split; [|rewrite skipn_plus, X; cbn [skipn]; rewrite R2; exact P].
    destruct Hb as [->|[N0 H]]; [reflexivity|]. destruct b; [|reflexivity]. destruct s2 as [|d s2]; [exfalso; apply N0; rewrite <- R2; reflexivity|].
    destruct (decode_rune (d :: s2)) as [q qw] eqn:DQ. cbn beta iota. destruct (q =? 47) eqn:Q47; [|reflexivity].
    apply Z.eqb_eq in Q47. exfalso. apply H. rewrite <- R2, runes_cons by discriminate. rewrite DQ. exact Q47.
Qed.

(** * Moving to the next segment *)
Lemma next_segment_ok name : forall fuel i, (length name - i < fuel)%nat ->
  match next_segment fuel name i with
  | Some j => (i < j <= length name)%nat /\ exists u, ~ In 47 u /\ runes (skipn i name) = u ++ 47 :: runes (skipn j name)
  | None => ~ In 47 (runes (skipn i name))
  end.
Proof.
  induction fuel as [|fuel IH]; intros i Fu; [lia|]. cbn [next_segment].
  destruct (skipn i name) as [|c s] eqn:X; [intros []|].
  destruct (skipn_cons_at _ _ _ _ X) as [Li _]. pose proof (decode_width (c :: s) ltac:(discriminate)) as W. rewrite runes_cons by discriminate.
  assert (length (skipn i name) = length (c :: s)) as LE by now rewrite X. rewrite skipn_length in LE.
  destruct (decode_rune (c :: s)) as [r w] eqn:D. cbn [fst snd] in *. destruct (r =? 47) eqn:R.
  - apply Z.eqb_eq in R. subst r. split; [lia|]. exists []. split; [intros []|]. cbn [app]. now rewrite skipn_plus, X.
  - apply Z.eqb_neq in R. specialize (IH (i + w)%nat ltac:(lia)). rewrite skipn_plus, X in IH. destruct (next_segment fuel name (i + w)) as [j|].
    + destruct IH as [Lj (u & Nu & E)]. split; [lia|]. exists (r :: u). split; [intros [H|H]; [lia|auto]|]. cbn [app]. now rewrite E.
    + intros [H|H]; [lia|auto].
Qed.

(** * The end of the name *)
Lemma is_str_ok a b : is_str a b = true <-> a = b.
Proof. unfold is_str. destruct (list_eq_dec Z.eq_dec a b); split; auto; discriminate. Qed.
Lemma runes_eq_ascii l : forall s, Forall (fun c => c < 128) l -> runes s = l -> s = l.
Proof.
  induction l as [|c l IH]; intros s F E; [now apply runes_nil|]. inversion F; subst. destruct (runes_low s c l E) as (s' & -> & R); [assumption|]. f_equal. auto.
Qed.
Lemma zero_ok b s its : parses b (runes s) its -> isZeroLengthPattern (S (length s)) s = PYes <-> closing its.
Proof.
  intros P. cbn [isZeroLengthPattern]. unfold closing.
  destruct (is_str s [] || is_str s [42] || is_str s [42; 42] || is_str s [47; 42; 42] || is_str s [42; 42; 47] || is_str s [47; 42; 42; 47]) eqn:Z.
  - split; [intros _|reflexivity]. rewrite !orb_true_iff, !is_str_ok in Z.
    destruct Z as [[[[[->| ->]| ->]| ->]| ->]| ->]; rewrite ?runes_ascii in P by lia; change (runes []) with (@nil Z) in P;
      repeat match goal with
      | H : parses _ (_ :: _) _ |- _ => inversion H; subst; clear H
      | H : parses _ [] _ |- _ => inversion H; subst; clear H
      end; cbn [hd Z.eqb Pos.eqb] in *; try (exfalso; tauto || lia); try congruence; cbn [In]; auto 10;
      try match goal with H : ~ In _ _ |- _ => exfalso; apply H; cbn; tauto end;
      try match goal with H : _ \/ _ |- _ => exfalso; destruct H as [H|[? ?]]; [discriminate|congruence] end.
  - split.
    + destruct s as [|c s]; [discriminate|]. destruct (c =? 123) eqn:C.
      * apply Z.eqb_eq in C. subst c. rewrite runes_ascii in P by lia. inversion P; subst. exfalso. match goal with H : ~ In _ _ |- _ => apply H end. cbn. tauto.
      * destruct (doValidatePattern (c :: s)) as [[|]|]; discriminate.
    + intros C. exfalso. rewrite !orb_false_iff in Z. destruct Z as [[[[[Z1 Z2] Z3] Z4] Z5] Z6].
      assert (forall l, is_str s l = false -> Forall (fun c => c < 128) l -> runes s <> l) as Q.
      { intros l H F E. apply (runes_eq_ascii l s F) in E. rewrite <- is_str_ok in E. congruence. }
      assert (runes s <> [] /\ runes s <> [42] /\ runes s <> [42; 42] /\ runes s <> [47; 42; 42] /\ runes s <> [42; 42; 47] /\ runes s <> [47; 42; 42; 47]) as (Q1 & Q2 & Q3 & Q4 & Q5 & Q6).
      { repeat split; apply Q; auto; repeat (apply Forall_cons; [lia|]); apply Forall_nil. }
      cbn [In] in C. destruct C as [<-|[<-|[<-|[<-|[<-|[<-|[]]]]]]];
      repeat match goal with
      | H : parses _ _ (_ :: _) |- _ => inversion H; subst; clear H
      | H : parses _ _ [] |- _ => inversion H; subst; clear H
      end; try congruence.
Qed.
