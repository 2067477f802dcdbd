(** Properties C40, C41 and C50: the patterns of the pool options. *)
From Coq Require Import ZArith List Bool Lia.
From Verif Require Import Pattern PatternSpec PatternFacts PatternRun PatternComplete PatternTotal PatternValid.
Import ListNotations.
Open Scope Z_scope.

(** * The specification of plain patterns: characters, '?' and '*' *)
Inductive wild : list Z -> list Z -> Prop :=
| w_nil : wild [] []
| w_char c p n : c <> 42 -> c <> 63 -> wild p n -> wild (c :: p) (c :: n)
| w_any r p n : r <> 47 -> wild p n -> wild (63 :: p) (r :: n)
| w_star x p n : ~ In 47 x -> wild p n -> wild (42 :: p) (x ++ n).
(** No escapes, classes and braces, and no two stars in a row. *)
Definition plain (p : list Z) : Prop := (forall c, In c p -> ~ In c [91; 92; 123; 125]) /\ (forall a b, p <> a ++ 42 :: 42 :: b).
(** The UTF-8 encoding of a character. *)
Definition utf8 (r : Z) : list Z :=
  if r <? 128 then [r]
  else if r <? 2048 then [192 + r / 64; 128 + r mod 64]
  else if r <? 65536 then [224 + r / 4096; 128 + r / 64 mod 64; 128 + r mod 64]
  else [240 + r / 262144; 128 + r / 4096 mod 64; 128 + r / 64 mod 64; 128 + r mod 64].

(** * Match, from the start of the pattern *)
Lemma match_sound p n its : parses true (runes p) its -> Match p n = PYes -> glob its (runes n).
Proof.
  intros P H. unfold Match in H. cbn [doMatch] in H.
  apply (loop_sound _ p n) with (its := its) (n := runes n) (so := None) (d := None) in H.
  - destruct H as [H|[(? & ? & ? & ? & E & _)|(? & ? & ? & ? & E & _)]]; try discriminate. now apply sglob_glob.
  - split; [exact P|]. split; [reflexivity|]. split; [exact I|]. split; [exact I|]. discriminate.
Qed.
Lemma match_complete p n its : parses true (runes p) its -> flat its -> calm its -> (forall pre, its <> pre ++ [Lit 47; Dirs]) -> glob its (runes n) -> Match p n = PYes.
Proof.
  intros P F C N G. pose proof (Match_fine p n) as FI. unfold Match in *. cbn [doMatch] in *.
  apply (loop_complete _ p n) with (its := its) (n := runes n) (so := None) (d := None); auto.
  - split; [exact P|]. split; [reflexivity|]. split; [exact I|]. split; [exact I|]. discriminate.
  - split; [split; assumption|]. split; discriminate.
  - left. now apply glob_sglob.
Qed.

(** * Plain patterns *)
Definition wildcard (i : item) : Prop := match i with Lit _ | Any | Star => True | _ => False end.
Definition spread (its : list item) : Prop := forall a b, its <> a ++ Star :: Star :: b.
Lemma plain_tail w p : plain p -> plain (skipn w p).
Proof.
  intros [A B]. rewrite <- (firstn_skipn w p) in A, B. split.
  - intros c Hc. apply A. apply in_or_app. now right.
  - intros a b E. rewrite E in B. apply (B (firstn w p ++ a) b). now rewrite app_assoc.
Qed.
Lemma glob_lit c its n : glob (Lit c :: its) n -> (exists m, n = c :: m /\ glob its m) \/ its = [Rest] \/ its = [Dirs].
Proof. intros H. inversion H as [|? ? r m T G| | | | |]; subst; auto. apply Z.eqb_eq in T. subst. left. eauto. Qed.
Lemma plain_items : forall k p b, (length p <= k)%nat -> plain p ->
  exists its, parses b (runes p) its /\ Forall wildcard its /\ spread its /\ (hd (Lit 0) its = Star -> hd 0 p = 42) /\ forall n, glob its n <-> wild (runes p) n.
Proof.
  induction k as [|k IH]; intros p b L PL.
  { destruct p; [|cbn in L; lia]. exists []. split; [constructor|]. split; [constructor|]. split; [intros [|]; discriminate|]. split; [discriminate|]. intros n. split; intros H; inversion H; constructor. }
  destruct p as [|c p]. { exists []. split; [constructor|]. split; [constructor|]. split; [intros [|]; discriminate|]. split; [discriminate|]. intros n. split; intros H; inversion H; constructor. }
  pose proof (decode_width (c :: p) ltac:(discriminate)) as W. pose proof (runes_cons (c :: p) ltac:(discriminate)) as R. rewrite R.
  destruct (decode_rune (c :: p)) as [r w] eqn:D. cbn [fst snd length] in *.
  pose proof (plain_tail w _ PL) as PL'. assert (length (skipn w (c :: p)) <= k)%nat as L' by (rewrite skipn_length; cbn [length]; lia).
  assert (r < 128 -> c = r /\ w = 1%nat) as LOW by (intros Hr; apply decode_low in D; auto; destruct D as (? & E & ->); injection E as -> _; auto).
  destruct (Z.eq_dec r 42) as [->|N42]; [|destruct (Z.eq_dec r 63) as [->|N63]].
  - destruct (LOW ltac:(lia)) as [-> ->]. cbn [skipn] in *. destruct (IH p false L' PL') as (its & P & F & S & HD & G).
    assert (hd 0 p <> 42) as NH. { destruct p as [|d p]; [cbn; lia|]. cbn [hd]. intros ->. destruct PL as [_ B]. now apply (B [] p). }
    exists (Star :: its). split.
    + apply p_star; auto. intros E. apply NH. now apply (runes_hd p 42).
    + split; [now constructor; [exact I|]|]. split.
      * intros [|x a] q E; injection E; intros; [|subst; eapply S; eauto]. subst. apply NH. now apply HD.
      * split; [reflexivity|]. intros n. split; intros H.
        -- inversion H as [| |x ? m NX GX| | | |]; subst; try discriminate. apply w_star; auto. now apply G.
        -- inversion H as [|? ? ? X| |x ? m NX GX]; subst; [congruence|]. apply g_star; auto. now apply G.
  - destruct (LOW ltac:(lia)) as [-> ->]. cbn [skipn] in *. destruct (IH p false L' PL') as (its & P & F & S & HD & G).
    exists (Any :: its). split; [now apply p_any|]. split; [now constructor; [exact I|]|]. split; [intros [|x a] q E; [discriminate|injection E; intros; subst; eapply S; eauto]|]. split; [discriminate|]. intros n. split; intros H.
    + inversion H as [|? ? x m T GX| | | | |]; subst. cbn [takes] in T. apply w_any; [intros ->; discriminate|now apply G].
    + inversion H as [|? ? ? ? X|x ? m NX GX|]; subst; [congruence|]. apply g_one; [|now apply G]. cbn [takes]. apply negb_true_iff. now apply Z.eqb_neq.
  - destruct (IH (skipn w (c :: p)) (r =? 47) L' PL') as (its & P & F & S & HD & G).
    exists (Lit r :: its). split; [|split; [now constructor; [exact I|]|split; [intros [|x a] q E; [discriminate|injection E; intros; subst; eapply S; eauto]|]]].
    + apply p_lit; auto. intros HI. assert (r < 128) as Hr by (cbn [In] in HI; intuition lia). destruct (LOW Hr) as [-> ->]. destruct PL as [A _]. apply (A r (or_introl eq_refl)). cbn [In] in *. intuition lia.
    + split; [discriminate|]. intros n. split; intros H.
      * apply glob_lit in H. destruct H as [(m & -> & GX)|[->| ->]]; [apply w_char; auto; now apply G| |]; inversion F as [|? ? X]; destruct X.
      * inversion H as [|? ? m X Y GX| |]; subst; try congruence. apply g_one; [apply Z.eqb_refl|now apply G].
Qed.
Lemma wildcard_flat its : Forall wildcard its -> flat its.
Proof.
  intros F i Hi T. rewrite Forall_forall in F. apply F in Hi. destruct i; try contradiction; try discriminate. cbn [takes] in T. apply Z.eqb_eq in T. now subst.
Qed.
Lemma wildcard_calm its : Forall wildcard its -> spread its -> calm its.
Proof.
  intros F S pre suf -> G. apply Forall_app in F. destruct F as [_ F]. remember [] as n eqn:E. revert pre S E. induction G as [|i its r n T G IH|x its n N G IH|x its n D G IH|n| |]; intros pre S E; try discriminate.
  - cbn. auto.
  - apply app_eq_nil in E. destruct E as [-> ->]. inversion F as [|? ? _ F']; subst. specialize (IH F' (pre ++ [Star])). rewrite <- app_assoc in IH. specialize (IH S eq_refl).
    unfold closing in IH. cbn [In] in IH. destruct IH as [<-|[<-|[<-|[<-|[<-|[<-|[]]]]]]].
    + cbn. auto.
    + exfalso. now apply (S pre []).
    + inversion F' as [|? ? X]; destruct X.
    + inversion F' as [|? ? X]; destruct X.
    + inversion F' as [|? ? _ F2]. inversion F2 as [|? ? X]; destruct X.
    + inversion F' as [|? ? _ F2]. inversion F2 as [|? ? X]; destruct X.
  - inversion F as [|? ? X]; destruct X.
  - cbn. auto 10.
  - cbn. auto 10.
  - cbn. auto 10.
Qed.
Lemma plain_seg p : (forall c, In c p -> ~ In c [91; 92; 123; 125]) -> seg p.
Proof.
  induction p as [|c p IH]; intros H; [constructor|]. apply s_plain; [|apply IH; intros d Hd; apply H; now right]. intros I. apply (H c (or_introl eq_refl)). cbn [In] in *. tauto.
Qed.
Lemma decided p n : seg p -> Match p n = PYes \/ Match p n = PNo.
Proof. intros S. destruct (Match_fine p n) as [F1 F2]. pose proof (Match_good p n S) as G. destruct (Match p n); auto; congruence. Qed.

(** C40: Match terminates without panicking, whatever pattern and name. *)
Theorem C40_total : forall pattern name, Match pattern name = PYes \/ Match pattern name = PNo \/ Match pattern name = PBad.
Proof. intros p n. destruct (Match_fine p n) as [F1 F2]. destruct (Match p n); auto; congruence. Qed.
Print Assumptions C40_total.

(** C40: on plain patterns Match decides the documented relation. *)
Theorem C40_wild : forall pattern name, plain pattern ->
  (Match pattern name = PYes <-> wild (runes pattern) (runes name)) /\ (Match pattern name = PNo <-> ~ wild (runes pattern) (runes name)).
Proof.
  intros p n PL. destruct (plain_items _ p true (le_n _) PL) as (its & P & F & S & _ & G).
  assert (Match p n = PYes <-> wild (runes p) (runes n)) as E.
  { rewrite <- G. split; [now apply match_sound|]. apply match_complete; [exact P|now apply wildcard_flat|now apply wildcard_calm|].
    intros pre ->. apply Forall_app in F. destruct F as [_ F]. inversion F as [|? ? _ F2]. inversion F2 as [|? ? X]; destruct X. }
  split; [exact E|]. destruct (decided p n (plain_seg p (proj1 PL))) as [M|M]; rewrite M in *.
  - split; [discriminate|]. intros N. exfalso. apply N. now apply E.
  - split; auto. intros _ W. apply E in W. discriminate.
Qed.
Print Assumptions C40_wild.

Lemma wild_lit p n : (forall c, In c p -> c <> 42 /\ c <> 63) -> wild p n <-> p = n.
Proof.
  intros H. split.
  - induction 1 as [|c p n N1 N2 Wp IH|r p n Nr Wp IH|x p n Nx Wp IH]; auto.
    + f_equal. apply IH. intros d Hd. apply H. now right.
    + destruct (H 63 (or_introl eq_refl)). congruence.
    + destruct (H 42 (or_introl eq_refl)). congruence.
  - intros <-. induction p as [|c p IH]; constructor; try apply (H c (or_introl eq_refl)). apply IH. intros d Hd. apply H. now right.
Qed.
Lemma rune_low_in : forall k p r, (length p <= k)%nat -> In r (runes p) -> r < 128 -> In r p.
Proof.
  induction k as [|k IH]; intros p r L I Hr; [destruct p; [destruct I|cbn in L; lia]|]. destruct p as [|c p]; [destruct I|]. rewrite runes_cons in I by discriminate.
  pose proof (decode_width (c :: p) ltac:(discriminate)) as W. destruct (decode_rune (c :: p)) as [q w] eqn:D. cbn [fst snd length] in *. destruct I as [->|I].
  - apply decode_low in D; auto. destruct D as (s' & E & _). injection E as -> _. now left.
  - rewrite <- (firstn_skipn w (c :: p)). apply in_or_app. right. apply IH; auto. rewrite skipn_length. cbn [length]. lia.
Qed.
Lemma decode_utf8 s r w : s <> [] -> decode_rune s = (r, w) -> r <> RuneError -> s = utf8 r ++ skipn w s.
Proof.
  intros NE D N. unfold utf8. destruct s as [|b0 s]; [congruence|]. unfold decode_rune in D. fold RuneError in D.
  destruct (Z.ltb_spec b0 128) as [A|A]. { injection D as <- <-. destruct (Z.ltb_spec b0 128); [reflexivity|lia]. }
  destruct (Z.ltb_spec b0 194) as [B|B]; [injection D; congruence|]. destruct (Z.ltb_spec b0 224) as [C|C].
  { destruct s as [|b1 s]; [injection D; congruence|]. unfold cont in D. destruct (Z.leb_spec 128 b1); [|injection D; congruence]. destruct (Z.leb_spec b1 191); [|injection D; congruence]. cbn [andb] in D. injection D as <- <-. cbn [skipn].
    set (r := (b0 - 192) * 64 + (b1 - 128)). assert (r / 64 = b0 - 192 /\ r mod 64 = b1 - 128) as [E1 E2] by (subst r; split; [symmetry; apply Z.div_unique with (b1 - 128)|symmetry; apply Z.mod_unique with (b0 - 192)]; lia).
    destruct (Z.ltb_spec r 128); [subst r; lia|]. destruct (Z.ltb_spec r 2048); [|subst r; lia]. rewrite E1, E2. cbn [app]. do 2 (apply f_equal2; [lia|]). reflexivity. }
  destruct (Z.ltb_spec b0 240) as [G|G].
  { destruct s as [|b1 [|b2 s]]; try (injection D; congruence).
    destruct ((if b0 =? 224 then (160 <=? b1) && (b1 <=? 191) else if b0 =? 237 then (128 <=? b1) && (b1 <=? 159) else cont b1) && cont b2) eqn:K; [|injection D; congruence]. injection D as <- <-. cbn [skipn].
    apply andb_true_iff in K. destruct K as [K1 K2]. unfold cont in K1, K2. apply andb_true_iff in K2. rewrite !Z.leb_le in K2.
    assert (128 <= b1 <= 191 /\ (b0 = 224 -> 160 <= b1)) as [K3 K4]. { destruct (Z.eqb_spec b0 224); [apply andb_true_iff in K1; rewrite !Z.leb_le in K1; split; [lia|auto; lia]|]. destruct (b0 =? 237); apply andb_true_iff in K1; rewrite !Z.leb_le in K1; lia. }
    set (r := (b0 - 224) * 4096 + (b1 - 128) * 64 + (b2 - 128)).
    assert (r / 64 = (b0 - 224) * 64 + (b1 - 128) /\ r mod 64 = b2 - 128) as [E1 E2] by (subst r; split; [symmetry; apply Z.div_unique with (b2 - 128)|symmetry; apply Z.mod_unique with ((b0 - 224) * 64 + (b1 - 128))]; lia).
    assert (r / 4096 = b0 - 224) as E3 by (subst r; symmetry; apply Z.div_unique with ((b1 - 128) * 64 + (b2 - 128)); lia).
    assert (((b0 - 224) * 64 + (b1 - 128)) mod 64 = b1 - 128) as E4 by (symmetry; apply Z.mod_unique with (b0 - 224); lia).
    destruct (Z.ltb_spec r 128); [subst r; lia|]. destruct (Z.ltb_spec r 2048); [subst r; lia|]. destruct (Z.ltb_spec r 65536); [|subst r; lia]. rewrite E1, E2, E3, E4. cbn [app]. do 3 (apply f_equal2; [lia|]). reflexivity. }
  destruct (Z.ltb_spec b0 245) as [J|J]; [|injection D; congruence].
  destruct s as [|b1 [|b2 [|b3 s]]]; try (injection D; congruence).
  destruct ((if b0 =? 240 then (144 <=? b1) && (b1 <=? 191) else if b0 =? 244 then (128 <=? b1) && (b1 <=? 143) else cont b1) && cont b2 && cont b3) eqn:K; [|injection D; congruence]. injection D as <- <-. cbn [skipn].
  apply andb_true_iff in K. destruct K as [K K3]. apply andb_true_iff in K. destruct K as [K1 K2]. unfold cont in K1, K2, K3. apply andb_true_iff in K2, K3. rewrite !Z.leb_le in K2, K3.
  assert (128 <= b1 <= 191 /\ (b0 = 240 -> 144 <= b1)) as [K4 K5]. { destruct (Z.eqb_spec b0 240); [apply andb_true_iff in K1; rewrite !Z.leb_le in K1; split; [lia|auto; lia]|]. destruct (b0 =? 244); apply andb_true_iff in K1; rewrite !Z.leb_le in K1; lia. }
  set (r := (b0 - 240) * 262144 + (b1 - 128) * 4096 + (b2 - 128) * 64 + (b3 - 128)).
  assert (r / 64 = (b0 - 240) * 4096 + (b1 - 128) * 64 + (b2 - 128) /\ r mod 64 = b3 - 128) as [E1 E2] by (subst r; split; [symmetry; apply Z.div_unique with (b3 - 128)|symmetry; apply Z.mod_unique with ((b0 - 240) * 4096 + (b1 - 128) * 64 + (b2 - 128))]; lia).
  assert (r / 4096 = (b0 - 240) * 64 + (b1 - 128)) as E3 by (subst r; symmetry; apply Z.div_unique with ((b2 - 128) * 64 + (b3 - 128)); lia).
  assert (r / 262144 = b0 - 240) as E4 by (subst r; symmetry; apply Z.div_unique with ((b1 - 128) * 4096 + (b2 - 128) * 64 + (b3 - 128)); lia).
  assert (((b0 - 240) * 4096 + (b1 - 128) * 64 + (b2 - 128)) mod 64 = b2 - 128) as E5 by (symmetry; apply Z.mod_unique with ((b0 - 240) * 64 + (b1 - 128)); lia).
  assert (((b0 - 240) * 64 + (b1 - 128)) mod 64 = b1 - 128) as E6 by (symmetry; apply Z.mod_unique with (b0 - 240); lia).
  destruct (Z.ltb_spec r 128); [subst r; lia|]. destruct (Z.ltb_spec r 2048); [subst r; lia|]. destruct (Z.ltb_spec r 65536); [subst r; lia|]. rewrite E1, E2, E3, E4, E5, E6. cbn [app]. do 4 (apply f_equal2; [lia|]). reflexivity.
Qed.
Lemma runes_utf8 : forall k s, (length s <= k)%nat -> ~ In RuneError (runes s) -> s = flat_map utf8 (runes s).
Proof.
  induction k as [|k IH]; intros s L N; [destruct s; [reflexivity|cbn in L; lia]|]. destruct s as [|c s]; [reflexivity|]. rewrite runes_cons in N |- * by discriminate.
  pose proof (decode_width (c :: s) ltac:(discriminate)) as W. destruct (decode_rune (c :: s)) as [r w] eqn:D. cbn [fst snd length flat_map] in *. cbn [In] in N.
  rewrite (decode_utf8 (c :: s) r w ltac:(discriminate) D) at 1 by (intros ->; apply N; now left). f_equal. apply IH; [rewrite skipn_length; cbn [length]; lia|]. intros X. apply N. now right.
Qed.

(** C40: a pattern without metacharacters matches exactly itself.  Patterns that are not
    valid UTF-8 (or contain U+FFFD) are left out: see [C40_not_utf8_refuted]. *)
Theorem C40_self : forall pattern name, (forall c, In c pattern -> ~ In c [42; 63; 91; 92; 123; 125]) -> ~ In RuneError (runes pattern) ->
  Match pattern name = PYes <-> name = pattern.
Proof.
  intros p n H U.
  assert (plain p) as PL. { split; [intros c Hc I; apply (H c Hc); cbn [In] in *; tauto|]. intros a b E. apply (H 42); [rewrite E; apply in_or_app; right; now left|cbn; auto]. }
  destruct (C40_wild p n PL) as [E _]. rewrite E. rewrite wild_lit.
  - split; [|now intros ->]. intros R. rewrite (runes_utf8 _ p (le_n _) U), R. apply (runes_utf8 _ n (le_n _)). now rewrite <- R.
  - intros c Hc. assert (c = 42 \/ c = 63 -> False) as X; [|lia]. intros C. assert (In c p) as I by (apply (rune_low_in _ p c (le_n _) Hc); lia). apply (H c I). cbn [In]. intuition lia.
Qed.
Print Assumptions C40_self.
(** Two byte strings that are not valid UTF-8 may match each other. *)
Theorem C40_not_utf8_refuted : exists pattern name, (forall c, In c pattern -> ~ In c [42; 63; 91; 92; 123; 125]) /\ Match pattern name = PYes /\ name <> pattern.
Proof. exists [255], [254]. split; [intros c [<-|[]]; cbn; lia|]. split; [vm_compute; reflexivity|discriminate]. Qed.
Print Assumptions C40_not_utf8_refuted.

(** The pattern  a*.P?l*  on  a/b.PoolX  and  ab.PoolX  *)
Example C40_ex : plain [97; 42; 46; 80; 63; 108; 42] /\ Match [97; 42; 46; 80; 63; 108; 42] [97; 98; 46; 80; 111; 108; 88] = PYes /\ Match [97; 42; 46; 80; 63; 108; 42] [97; 47; 98; 46; 80; 111; 108; 88] = PNo /\
  wild (runes [97; 42; 46; 80; 63; 108; 42]) (runes [97; 98; 46; 80; 111; 108; 88]).
Proof.
  assert (plain [97; 42; 46; 80; 63; 108; 42]) as PL. { split; [intros c Hc; cbn [In] in *; intuition lia|]. intros a b E. do 7 (destruct a as [|? a]; [discriminate|injection E as _ E]). destruct a; discriminate. }
  assert (Match [97; 42; 46; 80; 63; 108; 42] [97; 98; 46; 80; 111; 108; 88] = PYes) as M by (vm_compute; reflexivity).
  split; [exact PL|]. split; [exact M|]. split; [vm_compute; reflexivity|]. now apply (C40_wild _ _ PL).
Qed.
Example C40_self_ex : ~ In RuneError (runes [103; 47; 195; 169; 46; 77]) /\ Match [103; 47; 195; 169; 46; 77] [103; 47; 195; 169; 46; 77] = PYes.
Proof. split; [vm_compute; intuition discriminate|vm_compute; reflexivity]. Qed.

(** * C41 *)
(** C41: a validated pattern whose character classes contain no unescaped bracket, brace
    or comma never makes Match fail. *)
Theorem C41_no_error_partial : forall pattern name, ValidatePattern pattern = true -> quiet false pattern = true ->
  Match pattern name = PYes \/ Match pattern name = PNo.
Proof. intros p n V Q. apply decided. now apply valid_seg. Qed.
Print Assumptions C41_no_error_partial.
(** The pattern  x/{a,[b-c]{d,e}*}  *)
Definition c41_pat : list Z := [120; 47; 123; 97; 44; 91; 98; 45; 99; 93; 123; 100; 44; 101; 125; 42; 125].
Example C41_ex : ValidatePattern c41_pat = true /\ quiet false c41_pat = true /\ Match c41_pat [120; 47; 99; 101; 113] = PYes /\ Match c41_pat [120; 47; 99; 102] = PNo.
Proof. split; [vm_compute; reflexivity|]. split; [vm_compute; reflexivity|]. split; vm_compute; reflexivity. Qed.
(** In general the claim is false: {a,[}]} is valid but fails on  b;  [^a}] fails on  a. *)
Theorem C41_refuted : exists pattern name, ValidatePattern pattern = true /\ Match pattern name = PBad.
Proof. exists [123; 97; 44; 91; 125; 93; 125], [98]. split; vm_compute; reflexivity. Qed.
Print Assumptions C41_refuted.
Theorem C41_class_refuted : exists pattern name, ~ In 123 pattern /\ ValidatePattern pattern = true /\ Match pattern name = PBad.
Proof. exists [91; 94; 97; 125; 93], [97]. split; [cbn; lia|]. split; vm_compute; reflexivity. Qed.
Print Assumptions C41_class_refuted.

(** * C50: classes and doublestars *)
(** A match is a match in the documented sense. *)
Theorem C50_sound : forall pattern name its, parses true (runes pattern) its -> Match pattern name = PYes -> glob its (runes name).
Proof. intros. eapply match_sound; eauto. Qed.
Print Assumptions C50_sound.
(** Every documented match is found if no class takes '/', no two wildcards in a row end
    the pattern, and it does not end with "/**/". *)
Theorem C50_complete_partial : forall pattern name its, parses true (runes pattern) its -> flat its -> calm its -> (forall pre, its <> pre ++ [Lit 47; Dirs]) ->
  glob its (runes name) -> Match pattern name = PYes.
Proof. intros. eapply match_complete; eauto. Qed.
Print Assumptions C50_complete_partial.

(** The pattern  **/g/[a-cx]*y/**  *)
Definition c50_pat : list Z := [42; 42; 47; 103; 47; 91; 97; 45; 99; 120; 93; 42; 121; 47; 42; 42].
Definition c50_its : list item := [Dirs; Lit 103; Lit 47; Class false [(97, 97); (97, 99); (120, 120)]; Star; Lit 121; Lit 47; Rest].
Lemma c50_parses : parses true (runes c50_pat) c50_its.
Proof.
  change (runes c50_pat) with c50_pat. unfold c50_pat, c50_its. apply p_dirs. apply p_lit; [cbn; lia|]. apply p_lit; [cbn; lia|].
  apply p_class with (rest := [42; 121; 47; 42; 42]); try lia.
  - apply k_char; unfold MaxRune; try lia. apply k_range; try lia. apply k_char; unfold MaxRune; try lia. apply k_end.
  - apply p_star; [cbn; lia|]. apply p_lit; [cbn; lia|]. apply p_lit; [cbn; lia|]. apply p_rest.
Qed.
(** Deciding [calm]. *)
Fixpoint empties (its : list item) : bool :=
  match its with
  | [] | [Rest] => true
  | [Lit c; Rest] | [Lit c; Dirs] => c =? 47
  | Star :: t | Dirs :: t => empties t
  | _ => false
  end.
Definition closes (its : list item) : bool :=
  match its with
  | [] | [Star] | [Dirs] | [Rest] => true
  | [Lit c; Rest] | [Lit c; Dirs] => c =? 47
  | _ => false
  end.
Fixpoint calms (its : list item) : bool := (negb (empties its) || closes its) && match its with [] => true | _ :: t => calms t end.
Lemma glob_empties its : glob its [] -> empties its = true.
Proof.
  intros H. remember [] as n eqn:E. induction H as [|i its r n T G IH|x its n N G IH|x its n D G IH|n| |]; try discriminate; auto; apply app_eq_nil in E; destruct E as [-> ->]; cbn [empties]; auto.
Qed.
Lemma closes_ok its : closes its = true -> closing its.
Proof.
  destruct its as [|[c| |ng l| | |] [|[c'| |ng' l'| | |] [|]]]; cbn [closes]; try discriminate; intros H; try (apply Z.eqb_eq in H; subst c); cbn; auto 10.
Qed.
Lemma calms_ok its : calms its = true -> calm its.
Proof.
  intros H pre suf ->. induction pre as [|i pre IH]; cbn [app calms] in H.
  - intros G. apply glob_empties in G. destruct suf; [cbn; auto|]. cbn [calms] in H. rewrite G in H. cbn [negb orb] in H. apply andb_true_iff in H. now apply closes_ok.
  - apply andb_true_iff in H. now apply IH.
Qed.
Example C50_ex : flat c50_its /\ calm c50_its /\ (forall pre, c50_its <> pre ++ [Lit 47; Dirs]) /\
  Match c50_pat [120; 47; 121; 47; 103; 47; 98; 122; 121] = PYes /\ glob c50_its (runes [120; 47; 121; 47; 103; 47; 98; 122; 121]) /\ Match c50_pat [120; 47; 103; 47; 100; 121] = PNo.
Proof.
  assert (Match c50_pat [120; 47; 121; 47; 103; 47; 98; 122; 121] = PYes) as M by (vm_compute; reflexivity).
  split; [|split; [|split; [|split; [exact M|split; [exact (C50_sound _ _ _ c50_parses M)|vm_compute; reflexivity]]]]].
  - intros i Hi T. unfold c50_its in Hi. cbn [In] in Hi. destruct Hi as [<-|[<-|[<-|[<-|[<-|[<-|[<-|[<-|[]]]]]]]]]; try discriminate T; reflexivity.
  - apply calms_ok. reflexivity.
  - intros pre E. unfold c50_its in E. do 7 (destruct pre as [|? pre]; cbn [app] in E; [discriminate|injection E as _ E]). destruct pre as [|? [|? ?]]; discriminate.
Qed.
(** Without the conditions the claim is false:  *[!a]*c  does not match  b/c  (the star
    before the class does not give way after the class took the '/'). *)
Theorem C50_class_refuted : exists pattern name its, parses true (runes pattern) its /\ glob its (runes name) /\ Match pattern name = PNo.
Proof.
  exists [42; 91; 33; 97; 93; 42; 99], [98; 47; 99], [Star; Class true [(97, 97)]; Star; Lit 99].
  change (runes [42; 91; 33; 97; 93; 42; 99]) with [42; 91; 33; 97; 93; 42; 99]. change (runes [98; 47; 99]) with [98; 47; 99]. split; [|split].
  - apply p_star; [cbn; lia|]. apply p_negclass with (rest := [42; 99]); [now left|lia| |].
    + apply k_char; unfold MaxRune; try lia. apply k_end.
    + apply p_star; [cbn; lia|]. apply p_lit; [cbn; lia|]. apply p_end.
  - apply (g_star [98] _ [47; 99]); [cbn; lia|]. apply g_one; [reflexivity|]. apply (g_star [] _ [99]); [intros []|]. apply g_one; [reflexivity|apply g_nil].
  - vm_compute. reflexivity.
Qed.
Print Assumptions C50_class_refuted.
(** Nor does  a*/**  match  a,  although  /**  may match nothing. *)
Theorem C50_end_refuted : exists pattern name its, parses true (runes pattern) its /\ flat its /\ glob its (runes name) /\ Match pattern name = PNo.
Proof.
  exists [97; 42; 47; 42; 42], [97], [Lit 97; Star; Lit 47; Rest]. change (runes [97; 42; 47; 42; 42]) with [97; 42; 47; 42; 42]. change (runes [97]) with [97]. split; [|split; [|split]].
  - apply p_lit; [cbn; lia|]. apply p_star; [cbn; lia|]. apply p_lit; [cbn; lia|]. apply p_rest.
  - intros i Hi T. cbn [In] in Hi. destruct Hi as [<-|[<-|[<-|[<-|[]]]]]; try discriminate T; reflexivity.
  - apply g_one; [reflexivity|]. apply (g_star [] _ []); [intros []|]. apply g_dir.
  - vm_compute. reflexivity.
Qed.
Print Assumptions C50_end_refuted.
(** Nor does  **/a/**/  match  q/a/z/a. *)
Theorem C50_dirs_refuted : exists pattern name its, parses true (runes pattern) its /\ flat its /\ calm its /\ glob its (runes name) /\ Match pattern name = PNo.
Proof.
  exists [42; 42; 47; 97; 47; 42; 42; 47], [113; 47; 97; 47; 122; 47; 97], [Dirs; Lit 97; Lit 47; Dirs].
  change (runes [42; 42; 47; 97; 47; 42; 42; 47]) with [42; 42; 47; 97; 47; 42; 42; 47]. change (runes [113; 47; 97; 47; 122; 47; 97]) with [113; 47; 97; 47; 122; 47; 97]. split; [|split; [|split; [|split]]].
  - apply p_dirs. apply p_lit; [cbn; lia|]. apply p_lit; [cbn; lia|]. apply p_dirs. apply p_end.
  - intros i Hi T. cbn [In] in Hi. destruct Hi as [<-|[<-|[<-|[<-|[]]]]]; try discriminate T; reflexivity.
  - apply calms_ok. reflexivity.
  - apply (g_dirs [113; 47; 97; 47; 122; 47] _ [97]); [right; now exists [113; 47; 97; 47; 122]|]. apply g_one; [reflexivity|]. apply g_dir_slash.
  - vm_compute. reflexivity.
Qed.
Print Assumptions C50_dirs_refuted.
(** Braces change the meaning of a doublestar:  a{**}  matches  a/b,  a**  does not. *)
Theorem C50_brace_refuted : exists pre alt name, Match (pre ++ [123] ++ alt ++ [125]) name = PYes /\ Match (pre ++ alt) name = PNo.
Proof. exists [97], [42; 42], [97; 47; 98]. split; vm_compute; reflexivity. Qed.
Print Assumptions C50_brace_refuted.
