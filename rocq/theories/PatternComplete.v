(** The matcher's search is complete for flat patterns. *)
From Coq Require Import ZArith List Bool Lia.
From Verif Require Import Pattern PatternSpec PatternFacts PatternRun.
Import ListNotations.
Open Scope Z_scope.

(** * Counting separators *)
Definition cnt (l : list Z) : nat := count_occ Z.eq_dec l 47.
Definition nlit (its : list item) : nat := length (filter (fun i => match i with Lit c => c =? 47 | _ => false end) its).
Lemma cnt_app a b : cnt (a ++ b) = (cnt a + cnt b)%nat.
Proof. apply count_occ_app. Qed.
Lemma cnt_0 l : cnt l = 0%nat <-> ~ In 47 l.
Proof. unfold cnt. symmetry. apply count_occ_not_In. Qed.
Lemma nlit_app a b : nlit (a ++ b) = (nlit a + nlit b)%nat.
Proof. unfold nlit. now rewrite filter_app, app_length. Qed.
(** Items for one character, and those plus [Star]. *)
Definition one (i : item) : Prop := match i with Lit _ | Any | Class _ _ => True | _ => False end.
Definition walk (i : item) : Prop := one i \/ i = Star.
Lemma takes_one i r : takes i r = true -> one i.
Proof. destruct i; cbn; auto; discriminate. Qed.
Lemma flat_app a b : flat (a ++ b) -> flat a /\ flat b.
Proof. intros H. split; intros i Hi; apply H; apply in_or_app; auto. Qed.
Lemma takes_cnt A a : Forall2 (fun i r => takes i r = true) A a -> flat A -> cnt a = nlit A.
Proof.
  induction 1 as [|i r A a T F IH]; intros FL; [reflexivity|].
  assert (cnt a = nlit A) as E by (apply IH; intros j Hj; apply FL; now right).
  unfold cnt in *. cbn [count_occ]. unfold nlit in *. cbn [filter]. destruct (Z.eq_dec r 47) as [->|N].
  - rewrite (FL i (or_introl eq_refl) T). cbn [Z.eqb Pos.eqb length]. now rewrite E.
  - destruct i as [c| |neg l| | |]; cbn [length]; auto. cbn [takes] in T. apply Z.eqb_eq in T. subst c. apply Z.eqb_neq in N. now rewrite N.
Qed.
Lemma closing_suffix a b : closing (a ++ b) -> closing b.
Proof.
  unfold closing. cbn [In]. intros H.
  destruct a as [|x [|y a]]; cbn [app] in H; [exact H| |];
    destruct H as [H|[H|[H|[H|[H|[H|[]]]]]]]; try discriminate; injection H; intros; subst; auto 10;
    try (destruct a; cbn [app] in *; subst; auto; try discriminate).
Qed.
Lemma closing_two i j l : closing (i :: j :: l) -> i = Lit 47 /\ l = [] /\ (j = Rest \/ j = Dirs).
Proof. unfold closing. cbn [In]. intros [H|[H|[H|[H|[H|[H|[]]]]]]]; try discriminate; injection H; intros; subst; auto. Qed.

(** * Taking a match apart *)
Lemma sglob_ones A : forall its y, Forall one A -> sglob (A ++ its) y ->
  (exists a y', y = a ++ y' /\ Forall2 (fun i r => takes i r = true) A a /\ sglob its y') \/
  (exists A2, A2 <> [] /\ (exists A1, A = A1 ++ A2) /\ closing (A2 ++ its)).
Proof.
  induction A as [|i A IH]; intros its y F H; [left; exists [], y; repeat split; auto|].
  inversion F as [|? ? Oi F']; subst. cbn [app] in H. inversion H as [? C|? ? r n T G|? ? ? NE X G|? ? ? NE X G|? NE]; subst; try contradiction.
  - right. exists (i :: A). split; [discriminate|]. split; [exists []; reflexivity|exact C].
  - destruct (IH its n F' G) as [(a & y' & -> & FF & G')|(A2 & N2 & (A1 & ->) & C)].
    + left. exists (r :: a), y'. repeat split; auto.
    + right. exists A2. split; [exact N2|]. split; [exists (i :: A1); reflexivity|exact C].
Qed.
Lemma sglob_walk B : forall its y, Forall walk B -> flat B -> sglob (B ++ its) y ->
  (exists b y', y = b ++ y' /\ cnt b = nlit B /\ sglob its y' /\ ((exists B1, B = B1 ++ [Lit 47]) -> exists b1, b = b1 ++ [47]) /\ (B = [] -> b = [])) \/
  (exists B2, B2 <> [] /\ (exists B1, B = B1 ++ B2) /\ closing (B2 ++ its)).
Proof.
  induction B as [|i B IH]; intros its y F FL H; [left; exists [], y; repeat split; auto; intros [B1 E]; destruct B1; discriminate|].
  inversion F as [|? ? Wi F']; subst. assert (flat B) as FB by (intros j Hj; apply FL; now right).
  assert (forall q y', (exists b y'', y' = b ++ y'' /\ cnt b = nlit B /\ sglob its y'' /\ ((exists B1, B = B1 ++ [Lit 47]) -> exists b1, b = b1 ++ [47]) /\ (B = [] -> b = [])) ->
    cnt q = nlit [i] -> (i = Lit 47 -> q = [47]) ->
    exists b y'', q ++ y' = b ++ y'' /\ cnt b = nlit (i :: B) /\ sglob its y'' /\ ((exists B1, i :: B = B1 ++ [Lit 47]) -> exists b1, b = b1 ++ [47]) /\ (i :: B = [] -> b = [])) as EXT.
  { intros q y' (b & y'' & -> & CB & G & L1 & L2) CQ LQ. exists (q ++ b), y''. split; [now rewrite app_assoc|]. split; [rewrite cnt_app, CQ, CB; change (i :: B) with ([i] ++ B); now rewrite nlit_app|].
    split; [exact G|]. split; [|discriminate]. intros [B1 E]. destruct B1 as [|x B1]; cbn [app] in E.
    - injection E as -> ->. rewrite (L2 eq_refl), app_nil_r, (LQ eq_refl). now exists [].
    - injection E as <- E. destruct L1 as [b1 ->]; [eauto|]. exists (q ++ b1). now rewrite app_assoc. }
  cbn [app] in H. inversion H as [? C|? ? r n T G|x ? n NE X G|? ? ? NE X G|? NE]; subst.
  - right. exists (i :: B). split; [discriminate|]. split; [exists []; reflexivity|exact C].
  - destruct (IH its n F' FB G) as [L|(A2 & N2 & (A1 & ->) & C)].
    + left. apply (EXT [r] n L).
      * apply (takes_cnt [i] [r]); [repeat constructor; exact T|]. intros j [->|[]] Hj. apply FL; [now left|exact Hj].
      * intros ->. cbn [takes] in T. apply Z.eqb_eq in T. now subst.
    + right. exists A2. split; [exact N2|]. split; [exists (i :: A1); reflexivity|exact C].
  - destruct (IH its n F' FB G) as [L|(A2 & N2 & (A1 & ->) & C)].
    + left. apply (EXT x n L); [|discriminate]. apply cnt_0 in X. now rewrite X.
    + right. exists A2. split; [exact N2|]. split; [exists (Star :: A1); reflexivity|exact C].
  - exfalso. destruct Wi as [[]|Wi]. discriminate.
  - exfalso. destruct Wi as [[]|Wi]. discriminate.
Qed.
Lemma Forall2_len {A B} (R : A -> B -> Prop) l l' : Forall2 R l l' -> length l = length l'.
Proof. induction 1; cbn; congruence. Qed.
Lemma prefix_split {A} (a n x y : list A) : a ++ n = x ++ y -> (length a <= length x)%nat -> exists g, x = a ++ g /\ n = g ++ y.
Proof.
  revert x. induction a as [|u a IH]; intros x E L; [exists x; auto|]. destruct x as [|v x]; [cbn in L; lia|]. injection E as <- E. cbn in L.
  destruct (IH x E ltac:(lia)) as (g & -> & ->). now exists g.
Qed.
Lemma last_end {A} (g h : list A) c u : g ++ h = u ++ [c] -> h <> [] -> exists v, h = v ++ [c].
Proof.
  intros E N. destruct (exists_last N) as (v & d & ->). rewrite app_assoc in E. apply app_inj_tail in E. destruct E as [_ ->]. eauto.
Qed.
(** The only place for a run of characters after a * is the first. *)
Lemma gap A a a' n x y : Forall2 (fun i r => takes i r = true) A a -> Forall2 (fun i r => takes i r = true) A a' -> flat A ->
  a ++ n = x ++ a' ++ y -> x <> [] -> ~ In 47 x -> exists g, x ++ a' = a ++ g /\ n = g ++ y /\ ~ In 47 g /\ g <> [].
Proof.
  intros F F' FL E NX N. rewrite app_assoc in E. pose proof (Forall2_len _ _ _ F) as LF. pose proof (Forall2_len _ _ _ F') as LF'.
  destruct (prefix_split a n (x ++ a') y E) as (g & E1 & E2); [rewrite app_length; lia|]. exists g. split; [exact E1|]. split; [exact E2|].
  split.
  - apply cnt_0. apply cnt_0 in N. pose proof (f_equal cnt E1) as C. rewrite !cnt_app, N, (takes_cnt A a F FL), (takes_cnt A a' F' FL) in C. lia.
  - intros ->. apply (f_equal (@length Z)) in E1. rewrite !app_length in E1. cbn in E1. destruct x; [congruence|cbn in E1; lia].
Qed.

(** * The invariant of the search *)
Definition calmly (its : list item) : Prop := flat its /\ forall pre, its <> pre ++ [Lit 47; Dirs].
Lemma calmly_suffix a b : calmly (a ++ b) -> calmly b.
Proof. intros [F N]. split; [now apply flat_app in F|]. intros pre E. apply (N (a ++ pre)). now rewrite E, app_assoc. Qed.
Definition ends47 (B : list item) : Prop := exists B1, B = B1 ++ [Lit 47].
Definition inv (seg : bool) its n (so d : option (list item * list Z)) : Prop :=
  calmly its /\
  (forall sits sn, so = Some (sits, sn) -> calmly sits /\ ((exists t, sn = 47 :: t) \/
     (exists A a, sits = A ++ its /\ sn = a ++ n /\ Forall2 (fun i r => takes i r = true) A a /\ (seg = true -> ends47 A) /\
       forall dits dn, d = Some (dits, dn) -> exists B b, dits = B ++ sits /\ dn = b ++ sn /\ cnt b = nlit B /\ Forall walk B))) /\
  (forall dits dn, d = Some (dits, dn) -> calmly dits /\ exists B b, dits = B ++ its /\ dn = b ++ n /\ cnt b = nlit B /\ Forall walk B /\ (seg = true -> B = [] \/ ends47 B)).

Section Run.
Variable rec : list Z -> list Z -> option (nat * nat) -> option (nat * nat) -> nat -> nat -> pres.
Variable pat name : list Z.
Lemma inv_one i seg its r n so d b : takes i r = true -> (b = true -> i = Lit 47) -> inv seg (i :: its) (r :: n) so d -> inv b its n so d.
Proof.
  intros T BL (C & IS & ID). split; [exact (calmly_suffix [i] its C)|]. assert (flat [i]) as F1 by (intros j [<-|[]]; apply C; now left).
  assert (cnt [r] = nlit [i]) as C1 by (apply takes_cnt; [repeat constructor; exact T|exact F1]). split.
  - intros sits sn E. destruct (IS sits sn E) as [CS [ST|(A & a & -> & -> & F & SG & RD)]]; split; auto. right.
    exists (A ++ [i]), (a ++ [r]). split; [now rewrite <- app_assoc|]. split; [now rewrite <- app_assoc|]. split; [apply Forall2_app; auto|].
    split; [intros Eb; exists A; now rewrite (BL Eb)|exact RD].
  - intros dits dn E. destruct (ID dits dn E) as [CD (B & b0 & -> & -> & CN & W & SG)]. split; [exact CD|].
    exists (B ++ [i]), (b0 ++ [r]). split; [now rewrite <- app_assoc|]. split; [now rewrite <- app_assoc|]. split; [rewrite cnt_app, nlit_app; lia|].
    split; [apply Forall_app; split; [exact W|repeat constructor; eapply takes_one; eauto]|]. intros Eb. right. exists B. now rewrite (BL Eb).
Qed.
Lemma no_star_alt seg its n so d : inv seg its n so d -> alt_star so -> exists A a sits sn x y, so = Some (sits, sn) /\ sits = A ++ its /\ sn = a ++ n /\ Forall2 (fun i r => takes i r = true) A a /\
  (seg = true -> ends47 A) /\ sn = x ++ y /\ x <> [] /\ ~ In 47 x /\ sglob (A ++ its) y /\ calmly sits.
Proof.
  intros (_ & IS & _) (sits & sn & x & y & E & EX & NX & N47 & G). destruct (IS sits sn E) as [CS [(t & ST)|(A & a & -> & E2 & F & SG & _)]].
  - exfalso. subst sn. destruct x as [|c x]; [congruence|]. injection ST as -> _. apply N47. now left.
  - exists A, a, (A ++ its), sn, x, y. repeat split; auto; apply CS.
Qed.
(** What is left to find when the current position fails. *)
Lemma found_star seg its n so d : n <> [] -> inv seg (Star :: its) n so d -> found (Star :: its) n so d -> found its n (Some (its, n)) d.
Proof.
  intros NN I H.
  assert (sglob (Star :: its) n -> found its n (Some (its, n)) d) as Q.
  { intros G. inversion G as [? C|? ? r n' T G'|x ? n' NE X G'|? ? ? NE X G'|? NE]; subst; try congruence; [discriminate T|].
    destruct x as [|c x]; [now left|]. right. left. exists its, ((c :: x) ++ n'), (c :: x), n'. repeat split; auto. discriminate. }
  destruct H as [G|[G|G]]; [auto| |right; now right]. apply Q.
  destruct (no_star_alt _ _ _ _ _ I G) as (A & a & sits & sn & x & y & E & -> & -> & F & _ & EX & NX & N47 & SG & CS).
  assert (Forall one A) as FO by (clear -F; induction F; constructor; auto; eapply takes_one; eauto).
  destruct (sglob_ones A (Star :: its) y FO SG) as [(a' & y' & -> & F' & G')|(A2 & N2 & _ & C)].
  - destruct (gap A a a' n x y' F F' ltac:(apply (flat_app A (Star :: its)), CS) EX NX N47) as (g & _ & -> & Ng & NEg).
    inversion G' as [? C|? ? r n' T G2|x' ? n' NE X G2|? ? ? NE X G2|? NE]; subst.
    + apply s_star; auto. apply s_end. apply (closing_suffix [Star] its C).
    + discriminate T.
    + rewrite app_assoc. apply s_star; auto; [rewrite <- app_assoc; exact NN|]. intros IN. apply in_app_or in IN. destruct IN; auto.
  - exfalso. destruct A2 as [|i A2]; [congruence|]. destruct A2 as [|j A2]; cbn [app] in C.
    + destruct (closing_two _ _ _ C) as (_ & _ & [H|H]); discriminate.
    + destruct (closing_two _ _ _ C) as (_ & H & _). destruct A2; discriminate.
Qed.
Lemma found_dirs its n so d : n <> [] -> inv true (Dirs :: its) n so d -> found (Dirs :: its) n so d -> found its n None (Some (its, n)).
Proof.
  intros NN I H.
  assert (sglob (Dirs :: its) n -> found its n None (Some (its, n))) as Q.
  { intros G. inversion G as [? C|? ? r n' T G'|x ? n' NE X G'|x ? n' NE X G'|? NE]; subst; try congruence; [discriminate T|].
    destruct X as [->|[u ->]]; [now left|]. right. right. exists its, ((u ++ [47]) ++ n'), u, n'. auto. }
  destruct H as [G|[G|G]]; [auto| |].
  - exfalso. destruct (no_star_alt _ _ _ _ _ I G) as (A & a & sits & sn & x & y & E & -> & -> & F & SEG & EX & NX & N47 & SG & CS).
    assert (Forall one A) as FO by (clear -F; induction F; constructor; auto; eapply takes_one; eauto). destruct (SEG eq_refl) as [A1 ->].
    destruct (sglob_ones _ (Dirs :: its) y FO SG) as [(a' & y' & -> & F' & G')|(A2 & N2 & (A3 & EA) & C)].
    + destruct (gap _ a a' n x y' F F' ltac:(apply (flat_app (A1 ++ [Lit 47]) (Dirs :: its)), CS) EX NX N47) as (g & E1 & -> & Ng & NEg).
      apply Forall2_app_inv_l in F'. destruct F' as (l1 & l2 & _ & F2 & ->). inversion F2 as [|? r0 ? ? T F3]; subst. inversion F3; subst. cbn [takes] in T. apply Z.eqb_eq in T. subst r0.
      rewrite app_assoc in E1. destruct (last_end a g 47 (x ++ l1) (eq_sym E1) NEg) as [v ->]. apply Ng. apply in_or_app. right. now left.
    + destruct A2 as [|i A2]; [congruence|]. destruct A2 as [|j A2]; cbn [app] in C.
      * destruct (closing_two _ _ _ C) as (-> & -> & _). apply (proj2 CS A1). now rewrite <- app_assoc.
      * destruct (closing_two _ _ _ C) as (_ & H & _). destruct A2; discriminate.
  - apply Q. destruct G as (dits & dn & x & y & E & EX & SG). destruct I as (_ & _ & ID). destruct (ID dits dn E) as [CD (B & b & -> & -> & CN & W & SEG)]. specialize (SEG eq_refl).
    destruct (sglob_walk B (Dirs :: its) y W ltac:(apply (flat_app B (Dirs :: its)), CD) SG) as [(b' & y' & -> & CB & G' & L1 & L2)|(B2 & N2 & (B3 & EB) & C)].
    + rewrite app_assoc in EX. assert (cnt ((x ++ [47%Z]) ++ b') > cnt b)%nat as GT by (rewrite !cnt_app, CB, CN; change (cnt [47]) with 1%nat; lia).
      destruct (Nat.le_gt_cases (length b) (length ((x ++ [47]) ++ b'))) as [LE|LE].
      * destruct (prefix_split b n ((x ++ [47]) ++ b') y' EX LE) as (g & E1 & ->).
        assert (g <> []) as NG by (intros ->; rewrite app_nil_r in E1; rewrite E1 in GT; lia).
        assert (exists v, g = v ++ [47]) as [v ->].
        { destruct SEG as [->|EN].
          - rewrite (L2 eq_refl), app_nil_r in E1. exact (last_end b g 47 x (eq_sym E1) NG).
          - destruct (L1 EN) as [b1 ->]. rewrite app_assoc in E1. exact (last_end b g 47 _ (eq_sym E1) NG). }
        inversion G' as [? C|? ? r n' T G2|x' ? n' NE X G2|x' ? n' NE X G2|? NE]; subst.
        -- apply s_dirs; auto; [right; eauto|]. apply s_end. apply (closing_suffix [Dirs] its C).
        -- discriminate T.
        -- rewrite app_assoc. apply s_dirs; auto; [rewrite <- app_assoc; exact NN|]. right. destruct X as [->|[u ->]]; [exists v; now rewrite app_nil_r|exists ((v ++ [47]) ++ u); now rewrite !app_assoc].
      * exfalso. symmetry in EX. destruct (prefix_split _ y' b n EX ltac:(lia)) as (g & -> & _). rewrite (cnt_app _ g) in GT. lia.
    + exfalso. destruct B2 as [|i B2]; [congruence|]. destruct B2 as [|j B2]; cbn [app] in C.
      * destruct (closing_two _ _ _ C) as (-> & -> & _). apply (proj2 CD B3). now rewrite EB, <- app_assoc.
      * destruct (closing_two _ _ _ C) as (_ & H & _). destruct B2; discriminate.
Qed.
Lemma found_end seg its so d : inv seg its [] so d -> found its [] so d -> closing its.
Proof.
  intros I [G|[G|G]]; [now apply sglob_nil| |].
  - destruct (no_star_alt _ _ _ _ _ I G) as (A & a & sits & sn & x & y & E & -> & -> & F & _ & EX & NX & N47 & SG & CS).
    assert (Forall one A) as FO by (clear -F; induction F; constructor; auto; eapply takes_one; eauto).
    destruct (sglob_ones A its y FO SG) as [(a' & y' & -> & F' & G')|(A2 & N2 & _ & C)]; [exfalso|now apply closing_suffix in C].
    apply Forall2_len in F, F'. apply (f_equal (@length Z)) in EX. rewrite !app_length in EX. cbn in EX. destruct x; [congruence|]. cbn in EX. lia.
  - destruct G as (dits & dn & x & y & E & EX & SG). destruct I as (_ & _ & ID). destruct (ID dits dn E) as [CD (B & b & -> & -> & CN & W & SEG)].
    destruct (sglob_walk B its y W ltac:(apply (flat_app B its), CD) SG) as [(b' & y' & -> & CB & G' & L1 & L2)|(B2 & N2 & _ & C)]; [exfalso|now apply closing_suffix in C].
    apply (f_equal cnt) in EX. rewrite !cnt_app in EX. change (cnt []) with 0%nat in EX. change (cnt [47]) with 1%nat in EX. lia.
Qed.
Definition fine (r : pres) : Prop := r <> PFuel /\ r <> PPanic.
Lemma loop_complete : forall fuel st its n so d, rep pat name st its n so d -> inv (startOfSegment st) its n so d -> found its n so d ->
  fine (match_loop rec pat name fuel st) -> match_loop rec pat name fuel st = PYes.
Proof.
  induction fuel as [|fuel IH]; intros st its n so d R I H FI; [destruct FI as [FI _]; now destruct FI|]. cbn [match_loop] in *. destruct R as (P & N & RS & RD & NE).
  destruct (Nat.ltb_spec (nameIdx st) (length name)) as [L|L].
  - destruct n as [|r n]; [apply runes_nil in N; assert (length (skipn (nameIdx st) name) = 0%nat) as X by (now rewrite N); rewrite skipn_length in X; lia|].
    pose proof (switch_ok rec pat name st its r n P N) as SW.
    assert (forall sits sn, so = Some (sits, sn) -> sn <> []) as NE' by (intros sits sn E; destruct (NE _ _ E); [assumption|discriminate]).
    assert (forall st', doublestar st' = doublestar st -> star st' = star st -> match_switch rec pat name st = Break st' -> ~ sglob its (r :: n) ->
      match match_switch rec pat name st with Return r => r | Continue st' => match_loop rec pat name fuel st' | Break st' =>
        match match_backtrack pat name st' with Return r => r | Continue st'' => match_loop rec pat name fuel st'' | Break _ => PPanic end end = PYes) as BR.
    { intros st' Eds Est E NG. rewrite E in *. rewrite <- Est in RS. rewrite <- Eds in RD. destruct H as [H|H]; [contradiction|]. destruct I as (C & IS & ID).
      destruct (backtrack_ok pat name st' so d RS RD NE') as [(sits & r' & sn & st2 & -> & N47 & EB & R2 & SG)|[Hs [(dits & u & n2 & st2 & -> & Nu & EB & R2 & SG)|[Hd (x & EB & Nx)]]]]; rewrite EB in *.
      - destruct (IS sits (r' :: sn) eq_refl) as [CS [(t & X)|(A & a & EA & Ea & F & _ & RDS)]]; [injection X as -> _; congruence|].
        apply (IH st2 sits sn (Some (sits, sn)) d R2); [| |exact FI].
        + rewrite SG. split; [exact CS|]. split.
          * intros sits' sn' E'. injection E' as <- <-. split; [exact CS|]. right. exists [], []. repeat split; auto; [discriminate|].
            intros dits dn Ed. destruct (RDS dits dn Ed) as (B & b & E1 & E2 & E3 & E4). exists B, (b ++ [r']). split; [exact E1|]. split; [rewrite E2, <- app_assoc; reflexivity|].
            split; [|exact E4]. rewrite cnt_app, E3. assert (cnt [r'] = 0%nat) as -> by (apply cnt_0; intros [X|[]]; congruence). lia.
          * intros dits dn Ed. destruct (ID dits dn Ed) as [CD _]. split; [exact CD|]. destruct (RDS dits dn Ed) as (B & b & E1 & E2 & E3 & E4). exists B, (b ++ [r']). split; [exact E1|]. split; [rewrite E2, <- app_assoc; reflexivity|].
            split; [|split; [exact E4|discriminate]]. rewrite cnt_app, E3. assert (cnt [r'] = 0%nat) as -> by (apply cnt_0; intros [X|[]]; congruence). lia.
        + destruct H as [(sits' & sn' & x & y & E1 & E2 & NX & X47 & G)|H]; [|right; now right]. injection E1 as <- <-. destruct x as [|c x]; [congruence|]. injection E2 as <- ->.
          destruct x as [|c x]; [now left|]. right. left. exists sits, ((c :: x) ++ y), (c :: x), y. repeat split; auto; [discriminate|]. intros X. apply X47. now right.
      - apply (IH st2 dits n2 so (Some (dits, n2)) R2); [| |exact FI].
        + destruct (ID dits _ eq_refl) as [CD _]. rewrite SG. split; [exact CD|]. split.
          * intros sits sn E'. destruct (IS sits sn E') as [CS _]. split; [exact CS|]. left. destruct Hs as [->|(s' & t & ->)]; [discriminate|]. injection E' as <- <-. eauto.
          * intros dits' dn' E'. injection E' as <- <-. split; [exact CD|]. exists [], []. repeat split; auto.
        + destruct H as [(sits' & sn' & x & y & E1 & E2 & NX & X47 & G)|(dits' & dn' & x & y & E1 & E2 & G)].
          * exfalso. destruct Hs as [->|(s' & t & ->)]; [discriminate|]. injection E1 as <- <-. destruct x as [|c x]; [congruence|]. injection E2 as <- _. apply X47. now left.
          * injection E1 as <- <-. rewrite <- app_assoc in E2. cbn [app] in E2.
            destruct (Nat.le_gt_cases (length u) (length x)) as [LE|LE].
            -- destruct (prefix_split u (47 :: n2) x (47 :: y) E2 LE) as (g & -> & E3). destruct g as [|c g]; [injection E3 as ->; now left|]. injection E3 as <- ->.
               right. right. exists dits, (g ++ 47 :: y), g, y. repeat split; auto. now rewrite <- app_assoc.
            -- exfalso. symmetry in E2. destruct (prefix_split x (47 :: y) u (47 :: n2) E2 ltac:(lia)) as (g & -> & E3). destruct g as [|c g]; [rewrite app_nil_r in LE; lia|]. injection E3 as <- _. apply Nu. apply in_or_app. right. now left.
      - exfalso. destruct H as [(sits' & sn' & x' & y & E1 & E2 & NX & X47 & G)|(dits' & dn' & x' & y & E1 & E2 & G)].
        + destruct Hs as [->|(s' & t & ->)]; [discriminate|]. injection E1 as <- <-. destruct x' as [|c x']; [congruence|]. injection E2 as <- _. apply X47. now left.
        + destruct Hd as [->|(dd & dn & -> & ND)]; [discriminate|]. injection E1 as <- <-. apply ND. rewrite E2. apply in_or_app. left. apply in_or_app. right. now left. }
    destruct its as [|i its]; cbn [step_ok] in SW.
    { destruct SW as (st' & E & E1 & E2). apply (BR st' E1 E2 E). intros G. inversion G. }
    assert ((takes i r = true -> exists p w b, match_switch rec pat name st = Continue (MS p (nameIdx st + w) b (doublestar st) (star st)) /\ parses b (runes (skipn p pat)) its /\ runes (skipn (nameIdx st + w) name) = n /\ (b = true -> i = Lit 47)) ->
            (takes i r = false -> exists st', match_switch rec pat name st = Break st' /\ doublestar st' = doublestar st /\ star st' = star st) -> one i ->
      match match_switch rec pat name st with Return r => r | Continue st' => match_loop rec pat name fuel st' | Break st' =>
        match match_backtrack pat name st' with Return r => r | Continue st'' => match_loop rec pat name fuel st'' | Break _ => PPanic end end = PYes) as CASE.
    { intros C1 C2 O. destruct (takes i r) eqn:T.
      - destruct (C1 eq_refl) as (p & w & b & E & P' & N' & BL). rewrite E in *. apply (IH _ its n so d); auto.
        + split; [exact P'|]. split; [exact N'|]. split; [exact RS|]. split; [exact RD|]. intros sits sn E'. left. eauto.
        + exact (inv_one i _ its r n so d b T BL I).
        + destruct H as [G|G]; [|now right]. left. inversion G; subst; auto; destruct O.
      - destruct (C2 eq_refl) as (st' & E & E1 & E2). apply (BR st' E1 E2 E). intros G. inversion G; subst; [congruence| | |]; destruct O. }
    destruct i as [c| |neg l| | |]; cbn beta iota in SW.
    + apply CASE; [intros T; rewrite T in SW; exact SW|intros T; rewrite T in SW; exact SW|exact Logic.I].
    + apply CASE; [intros T; rewrite T in SW; exact SW|intros T; rewrite T in SW; exact SW|exact Logic.I].
    + apply CASE; [intros T; rewrite T in SW; exact SW|intros T; rewrite T in SW; exact SW|exact Logic.I].
    + destruct SW as (p & E & P'). rewrite E in *. apply (IH _ its (r :: n) (Some (its, r :: n)) d); auto.
      * split; [exact P'|]. split; [exact N|]. split; [cbn [rep_bt star]; auto|]. split; [exact RD|]. intros sits sn E'. injection E' as <- <-. left. discriminate.
      * cbn [startOfSegment]. destruct I as (C & IS & ID). split; [exact (calmly_suffix [Star] its C)|]. split.
        -- intros sits sn E'. injection E' as <- <-. split; [exact (calmly_suffix [Star] its C)|]. right. exists [], []. repeat split; auto; [discriminate|].
           intros dits dn Ed. destruct (ID dits dn Ed) as [_ (B & b & -> & -> & CN & W & _)]. exists (B ++ [Star]), b. split; [now rewrite <- app_assoc|]. split; [reflexivity|]. split; [rewrite nlit_app; cbn; lia|].
           apply Forall_app. split; [exact W|apply Forall_cons; [now right|apply Forall_nil]].
        -- intros dits dn Ed. destruct (ID dits dn Ed) as [CD (B & b & -> & -> & CN & W & _)]. split; [exact CD|]. exists (B ++ [Star]), b. split; [now rewrite <- app_assoc|]. split; [reflexivity|]. split; [rewrite nlit_app; cbn; lia|].
           split; [|discriminate]. apply Forall_app. split; [exact W|apply Forall_cons; [now right|apply Forall_nil]].
      * eapply found_star; eauto. discriminate.
    + destruct SW as (p & E & P' & SG). rewrite E in *. apply (IH _ its (r :: n) None (Some (its, r :: n))); auto.
      * split; [exact P'|]. split; [exact N|]. split; [exact Logic.I|]. split; [cbn [rep_bt doublestar]; auto|]. discriminate.
      * cbn [startOfSegment]. destruct I as (C & _ & _). split; [exact (calmly_suffix [Dirs] its C)|]. split; [discriminate|].
        intros dits dn E'. injection E' as <- <-. split; [exact (calmly_suffix [Dirs] its C)|]. exists [], []. repeat split; auto.
      * rewrite SG in I. eapply found_dirs; eauto. discriminate.
    + destruct SW as [-> _]. reflexivity.
  - rewrite skipn_all2 in N by assumption. subst n. unfold from in *. destruct (Nat.leb_spec (patIdx st) (length pat)) as [Lp|Lp]; [|destruct FI as [_ FI]; now destruct FI].
    apply (zero_ok _ _ _ P). eapply found_end; eauto.
Qed.
End Run.
