(** Goroutines on memory with shared pools and on trees without: what stays related. *)
From Coq Require Import ZArith List Bool Lia Permutation.
From Verif Require Import PoolSpec.
From Verif Require Import Heap HeapSpec HeapRead HeapDec HeapOwnSpec HeapOwnFacts HeapSim HeapSimRun HeapReset HeapNil HeapCloneSpec HeapHist HeapHistFacts HeapPar.
From Verif Require Import Base BaseFacts Schema Value Helpers Unmarshal Clone Pool WireSpec Typing RecordSpec MsgSpec DecodeSpec ContentSpec CloneSpec
  TargetFacts UmFacts SameFacts EqualRel RunRel RunFacts PoolFacts PoolRun PoolTotal WithinFacts.
Import ListNotations.
Open Scope Z_scope.

(** * The operations of a program on part of the messages and buffers *)
Definition shift (n k : nat) (o : op) : op :=
  match o with
  | OWrite j bs => OWrite (k + j) bs
  | OUnmarshal i j off len => OUnmarshal (n + i) (k + j) off len
  | OSet i num x => OSet (n + i) num x
  | OReset i => OReset (n + i)
  | OReturn i => OReturn (n + i)
  | OForget i => OForget (n + i)
  | OClone i => OClone (n + i)
  | _ => o
  end.
Lemma nth_shift {A} (l r : list A) i : nth_error (l ++ r) (length l + i) = nth_error r i.
Proof. rewrite nth_error_app2 by lia. f_equal. lia. Qed.
Lemma without_shift {A} (l r : list A) i : without (length l + i) (l ++ r) = l ++ without i r.
Proof.
  unfold without. rewrite firstn_app_2, skipn_app, (skipn_all2 l) by lia. replace (S (length l + i) - length l)%nat with (S i) by lia. now rewrite <- app_assoc.
Qed.
Lemma set_shift {A} (l r : list A) i x : list_set (l ++ r) (length l + i) x = l ++ list_set r i x.
Proof. induction l as [|y l IH]; cbn; [reflexivity|]. now rewrite IH. Qed.

Section Shift.
Variable sc : schema.
Variable grow : nat -> nat.
Variables uunm uext : nat -> nat -> list Z -> list obj -> bool * list obj.
Variable uclone : nat -> hval -> list obj -> option (hval * list obj).
Notation hstep := (hstep sc grow uunm uext uclone).
Notation pstep := (pstep sc).
Definition widen (A : list (nat * nat)) (B : list nat) (r : option (option err * world)) : option (option err * world) :=
  match r with Some (e, w) => Some (e, World (w_mem w) (A ++ w_msgs w) (B ++ w_bufs w)) | None => None end.
Lemma hstep_shift A B o s ms bs : hstep (shift (length A) (length B) o) (World s (A ++ ms) (B ++ bs)) = widen A B (hstep o (World s ms bs)).
Proof.
  destruct o; cbn [shift HeapHist.hstep w_mem w_msgs w_bufs]; cbv zeta; rewrite ?nth_shift, ?without_shift.
  - destruct (acc _ s); cbn [widen w_mem w_msgs w_bufs]; rewrite <- ?app_assoc; reflexivity.
  - destruct (acc _ s); cbn [widen w_mem w_msgs w_bufs]; rewrite <- ?app_assoc; reflexivity.
  - destruct (acc _ s); cbn [widen w_mem w_msgs w_bufs]; rewrite <- ?app_assoc; reflexivity.
  - destruct (nth_error bs k); [|reflexivity]. destruct (acc _ s); reflexivity.
  - destruct (nth_error ms i) as [[m a]|]; [|reflexivity]. destruct (nth_error bs k); [|reflexivity]. destruct (acc _ s) as [[]| | |]; try reflexivity. destruct (Nat.leb _ _); [|reflexivity].
    destruct (hUnmarshal _ _ _ _ _ _ _ _ s); reflexivity.
  - destruct (nth_error ms i) as [[m a]|]; [|reflexivity]. destruct (member sc m n x) as [[[f lbl] k]|]; [|reflexivity]. destruct (hstore _ _ _ _ _ s); reflexivity.
  - destruct (nth_error ms i) as [[m a]|]; [|reflexivity]. destruct (md_pool _); [|reflexivity]. destruct (hreset_msg _ _ _ _ s); reflexivity.
  - destruct (nth_error ms i) as [[m a]|]; [|reflexivity]. destruct (md_pool _); [|reflexivity]. destruct (hReturnToVTPool _ _ _ _ s); cbn [widen w_mem w_msgs w_bufs]; reflexivity.
  - reflexivity.
  - reflexivity.
  - destruct (nth_error ms i) as [[m a]|]; [|reflexivity]. destruct (hclone_msg _ _ _ _ _ s) as [[[] ?]|]; cbn [widen w_mem w_msgs w_bufs]; rewrite <- ?app_assoc; reflexivity.
Qed.
Lemma pstep_shift A B o ms bs : pstep (shift (length A) (length B) o) (Desk (A ++ ms) (B ++ bs)) =
  (fst (pstep o (Desk ms bs)), Desk (A ++ d_msgs (snd (pstep o (Desk ms bs)))) (B ++ d_bufs (snd (pstep o (Desk ms bs))))).
Proof.
  destruct o; cbn [shift HeapHist.pstep d_msgs d_bufs]; rewrite ?nth_shift, ?without_shift; cbn [fst snd d_msgs d_bufs]; rewrite <- ?app_assoc; try reflexivity.
  - destruct (nth_error bs k); [|reflexivity]. destruct (Nat.eqb _ _); cbn [fst snd d_msgs d_bufs]; rewrite ?set_shift; reflexivity.
  - destruct (nth_error ms i) as [[m a]|]; [|reflexivity]. destruct (nth_error bs k); [|reflexivity]. destruct (cut _ _ _); [|reflexivity].
    destruct (UnmarshalVT _ _ _ _); cbn [fst snd d_msgs d_bufs]; rewrite ?set_shift; reflexivity.
  - destruct (nth_error ms i) as [[m a]|]; [|reflexivity]. destruct (member sc m n x) as [[[f lbl] k]|]; [|reflexivity]. destruct (store _ _ _ _ _); cbn [fst snd d_msgs d_bufs]; rewrite ?set_shift; reflexivity.
  - destruct (nth_error ms i) as [[m a]|]; [|reflexivity]. destruct (md_pool _); cbn [fst snd d_msgs d_bufs]; rewrite ?set_shift; reflexivity.
  - destruct (nth_error ms i) as [[m a]|]; [|reflexivity]. destruct (md_pool _); cbn [fst snd d_msgs d_bufs]; reflexivity.
  - destruct (nth_error ms i) as [[m a]|]; [|reflexivity]. cbn [fst snd d_msgs d_bufs]. rewrite <- app_assoc. reflexivity.
Qed.
Lemma shift_ok A B o : op_ok sc o -> op_ok sc (shift A B o).
Proof. destruct o; cbn; auto. Qed.
Lemma shift_about n k o j : (j < n)%nat -> about (shift n k o) <> Some j.
Proof. destruct o; cbn; intros L E; try discriminate E; injection E; lia. Qed.
Lemma shift_writes n k o j : (j < k)%nat -> writes (shift n k o) <> Some j.
Proof. destruct o; cbn; intros L E; try discriminate E; injection E; lia. Qed.
End Shift.

Lemma set_middle {A} (l r : list A) x y : list_set (l ++ x :: r) (length l) y = l ++ y :: r.
Proof. induction l as [|z l IH]; cbn; [reflexivity|]. now rewrite IH. Qed.
Lemma combine_fst {A B} (l : list A) (l' : list B) : length l = length l' -> map fst (combine l l') = l.
Proof. revert l'. induction l as [|x l IH]; intros [|y l'] E; try discriminate E; cbn; [reflexivity|]. f_equal. apply IH. now injection E. Qed.
Lemma combine_snd {A B} (l : list A) (l' : list B) : length l = length l' -> map snd (combine l l') = l'.
Proof. revert l'. induction l as [|x l IH]; intros [|y l'] E; try discriminate E; cbn; [reflexivity|]. f_equal. apply IH. now injection E. Qed.
Lemma f2_pairs {A B} (R : A -> B -> Prop) l : Forall2 R (map fst l) (map snd l) <-> Forall (fun p => R (fst p) (snd p)) l.
Proof.
  split; intros H.
  - induction l as [|x l IH]; [constructor|]. inversion H; subst. constructor; auto.
  - induction H; cbn; constructor; auto.
Qed.
Lemma f2_length {A B} (R : A -> B -> Prop) l l' : Forall2 R l l' -> length l = length l'.
Proof. induction 1; cbn; congruence. Qed.
Lemma map_list_set {A B} (f : A -> B) l i x : map f (list_set l i x) = list_set (map f l) i (f x).
Proof. revert i. induction l as [|y l IH]; intros [|i]; cbn; try reflexivity. now rewrite IH. Qed.
Lemma nth_error_split' {A} (l : list A) i x : nth_error l i = Some x -> exists l1 l2, l = l1 ++ x :: l2 /\ length l1 = i.
Proof. apply nth_error_split. Qed.

Section Par.
Variable sc : schema.
Hypothesis W : wf_schema sc = true.
Hypothesis UD : up_dec_ok sc.
Hypothesis UC : up_compact sc.
Hypothesis UN : up_no_nil sc.
Hypothesis PL : pools_local sc.
Variable grow : nat -> nat.
Variables uunm uext : nat -> nat -> list Z -> list obj -> bool * list obj.
Variable uclone : nat -> hval -> list obj -> option (hval * list obj).
Hypothesis UU : up_owns sc true true false (fun md => md_foreign md = true) (up_dec (sc_up sc)) uunm.
Hypothesis UE : up_owns sc true true false (fun md => md_ext md <> []) (up_ext (sc_up sc)) uext.
Hypothesis UCL : up_clone_ok sc.
Hypothesis UCM : up_clone_more sc.
Hypothesis UK : up_clone_owns sc uclone.
Notation inv := (inv sc).

(** What a goroutine has, on both sides. *)
Definition thread : Type := (list ((nat * nat) * (nat * val)) * list (nat * list Z))%type.
Definition lv (th : thread) : view := View (map fst (fst th)) (map fst (snd th)).
Definition rd (th : thread) : desk := Desk (map snd (fst th)) (map snd (snd th)).
Definition joined (s : mem) (P : list ((nat * nat) * (nat * val))) (Q : list (nat * list Z)) (pc : nat -> nat) : Prop :=
  inv pc (World s (map fst P) (map fst Q)) (Desk (map snd P) (map snd Q)).
Lemma joined_perm s P Q P' Q' pc : Permutation P P' -> Permutation Q Q' -> joined s P Q pc -> joined s P' Q' pc.
Proof.
  intros EP EQ I. unfold joined in *. destruct I. constructor; cbn [w_mem w_msgs w_bufs d_msgs d_bufs] in *; auto.
  - apply f2_pairs in i_msgs. apply f2_pairs. eapply Permutation_Forall; eauto.
  - eapply Permutation_NoDup; [|exact i_held]. now apply Permutation_map, Permutation_map.
  - intros a Ha. apply i_apart. eapply Permutation_in; [|exact Ha]. symmetry. now apply Permutation_map, Permutation_map.
  - apply f2_pairs in i_bufs. apply f2_pairs. eapply Permutation_Forall; eauto.
  - eapply Permutation_NoDup; [|exact i_distinct]. now apply Permutation_map.
Qed.
Definition sinv (pc : nat -> nat) (s : mem) (ths : list thread) : Prop := joined s (flat_map fst ths) (flat_map snd ths) pc.
Lemma front {A B} (f : A -> list B) (l1 l2 : list A) x : Permutation (flat_map f (l1 ++ x :: l2)) (flat_map f (l1 ++ l2) ++ f x).
Proof.
  rewrite !flat_map_app. cbn [flat_map]. rewrite <- app_assoc. apply Permutation_app_head. apply Permutation_app_comm.
Qed.
(** What belongs to the others is not touched. *)
Definition leaves (pc pc' : nat -> nat) (s s' : mem) (th : thread) : Prop :=
  (forall m a y b, In ((m, a), y) (fst th) -> pc b = S a -> pc' b = S a /\ nth_error (heap s') b = nth_error (heap s) b) /\
  (forall a bs, In (a, bs) (snd th) -> nth_error (heap s') a = nth_error (heap s) a).

Lemma act_step pc s l1 th l2 o : sinv pc s (l1 ++ th :: l2) -> op_ok sc o ->
  exists s' th' pc', hstep sc grow uunm uext uclone o (World s (v_msgs (lv th)) (v_bufs (lv th))) = Some (fst (pstep sc o (rd th)), World s' (v_msgs (lv th')) (v_bufs (lv th'))) /\
    snd (pstep sc o (rd th)) = rd th' /\ sinv pc' s' (l1 ++ th' :: l2) /\ forall x, In x (l1 ++ l2) -> leaves pc pc' s s' x.
Proof.
  intros I K. set (P := flat_map fst (l1 ++ l2)). set (Q := flat_map snd (l1 ++ l2)).
  assert (joined s (P ++ fst th) (Q ++ snd th) pc) as J by (eapply joined_perm; [apply front|apply front|exact I]).
  unfold joined in J. rewrite !map_app in J. pose (o' := shift (length P) (length Q) o).
  destruct (step_follows sc W UD UC UN PL grow uunm uext uclone UU UE UCL UCM UK pc _ _ o' J (shift_ok sc _ _ _ K)) as (w' & pc' & E & I' & Ko & Kb).
  assert (o' = shift (length (map fst P)) (length (map fst Q)) o) as E1 by (rewrite !map_length; reflexivity).
  assert (o' = shift (length (map snd P)) (length (map snd Q)) o) as E2 by (rewrite !map_length; reflexivity).
  rewrite E1 in E at 1. rewrite E2 in E, I'. rewrite hstep_shift in E. rewrite pstep_shift in E, I'. cbn [fst snd] in E, I'. unfold lv, rd. cbn [v_msgs v_bufs].
  destruct (hstep sc grow uunm uext uclone o (World s (map fst (fst th)) (map fst (snd th)))) as [[e [s1 ms1 bs1]]|] eqn:Eh; [|discriminate E]. cbn [widen w_mem w_msgs w_bufs] in E. injection E as Ee <-.
  destruct (pstep sc o (Desk (map snd (fst th)) (map snd (snd th)))) as [e' [dm db]] eqn:Ep. cbn [fst snd d_msgs d_bufs] in *. subst e.
  assert (length ms1 = length dm) as Lm.
  { pose proof (f2_length _ _ _ (i_msgs _ _ _ _ I')) as X. cbn [w_msgs d_msgs] in X. rewrite !app_length, !map_length in X. lia. }
  assert (length bs1 = length db) as Lb.
  { pose proof (f2_length _ _ _ (i_bufs _ _ _ _ I')) as X. cbn [w_bufs d_bufs] in X. rewrite !app_length, !map_length in X. lia. }
  exists s1, (combine ms1 dm, combine bs1 db), pc'. cbn [lv rd v_msgs v_bufs fst snd]. rewrite (combine_fst ms1 dm), (combine_fst bs1 db), (combine_snd ms1 dm), (combine_snd bs1 db) by auto.
  split; [reflexivity|]. split; [reflexivity|]. split.
  - eapply (joined_perm s1 (P ++ combine ms1 dm) (Q ++ combine bs1 db)).
    + symmetry. apply (front fst l1 l2 (combine ms1 dm, combine bs1 db)).
    + symmetry. apply (front snd l1 l2 (combine ms1 dm, combine bs1 db)).
    + unfold joined. rewrite !map_app, (combine_fst ms1 dm), (combine_fst bs1 db), (combine_snd ms1 dm), (combine_snd bs1 db) by auto. exact I'.
  - intros x Hx. split.
    + intros m a y b Hin Hb. assert (In (m, a) (map fst P)) as HP.
      { apply in_map_iff. exists ((m, a), y). split; [reflexivity|]. apply in_flat_map. eauto. }
      destruct (In_nth_error _ _ HP) as [j Ej]. assert (j < length (map fst P))%nat as Lj by (apply nth_error_Some; congruence).
      apply (Ko j m a b); cbn [w_msgs]; auto; [now rewrite nth_error_app1|]. rewrite E1. now apply shift_about.
    + intros a bs Hin. assert (In a (map fst Q)) as HQ.
      { apply in_map_iff. exists (a, bs). split; [reflexivity|]. apply in_flat_map. eauto. }
      destruct (In_nth_error _ _ HQ) as [j Ej]. assert (j < length (map fst Q))%nat as Lj by (apply nth_error_Some; congruence).
      apply (Kb j a); cbn [w_bufs]; auto; [now rewrite nth_error_app1|]. rewrite E1. now apply shift_writes.
Qed.

Definition sys (s : mem) (ths : list thread) : system := System s (map lv ths).
Lemma list_set_same {A} (l : list A) i x : nth_error l i = Some x -> list_set l i x = l.
Proof. revert i. induction l as [|y l IH]; intros [|i] E; try discriminate E; cbn in *; [congruence|]. now rewrite IH. Qed.

(** Handing over: [take] is the goroutine without the thing, [give] one with it. *)
Lemma flat_set {B} (f : thread -> list B) ths i th th' : nth_error ths i = Some th -> Permutation (f th ++ flat_map f (list_set ths i th')) (f th' ++ flat_map f ths).
Proof.
  intros E. apply nth_error_split' in E as (l1 & l2 & -> & <-). rewrite set_middle. rewrite (front f l1 l2 th'), (front f l1 l2 th).
  rewrite (Permutation_app_comm (flat_map f (l1 ++ l2)) (f th')), (Permutation_app_comm (flat_map f (l1 ++ l2)) (f th)). rewrite !app_assoc. apply Permutation_app_tail. apply Permutation_app_comm.
Qed.
Lemma without_perm {A} i (l : list A) x : nth_error l i = Some x -> Permutation l (x :: without i l).
Proof.
  intros E. apply nth_error_split in E as (l1 & l2 & -> & <-). unfold without. rewrite firstn_app, Nat.sub_diag, firstn_all. cbn [firstn]. rewrite app_nil_r, skipn_app, skipn_all2 by lia.
  replace (S (length l1) - length l1)%nat with 1%nat by lia. cbn. symmetry. apply Permutation_middle.
Qed.
Lemma moved {B} (f : thread -> list B) ths t u th th' x du du' : nth_error ths t = Some th -> Permutation (f th) (x :: f th') -> nth_error (list_set ths t th') u = Some du -> Permutation (f du') (x :: f du) ->
  Permutation (flat_map f ths) (flat_map f (list_set (list_set ths t th') u du')).
Proof.
  intros Et P1 Eu P2. pose proof (flat_set f _ _ _ th' Et) as A1. pose proof (flat_set f _ _ _ du' Eu) as A2.
  rewrite P1 in A1. rewrite P2 in A2. cbn [app] in *.
  set (X := flat_map f (list_set ths t th')) in *. set (Y := flat_map f (list_set (list_set ths t th') u du')) in *.
  assert (Permutation (f du ++ x :: X) (f du ++ Y)) as A3 by (rewrite A2; symmetry; apply Permutation_middle).
  apply Permutation_app_inv_l in A3. assert (Permutation (f th' ++ x :: X) (f th' ++ flat_map f ths)) as A4 by (rewrite <- A1; symmetry; apply Permutation_middle).
  apply Permutation_app_inv_l in A4. now rewrite <- A4.
Qed.
Lemma kept {B} (f : thread -> list B) ths t u th th' du du' : nth_error ths t = Some th -> f th = f th' -> nth_error (list_set ths t th') u = Some du -> f du' = f du ->
  Permutation (flat_map f ths) (flat_map f (list_set (list_set ths t th') u du')).
Proof.
  intros Et P1 Eu P2. pose proof (flat_set f _ _ _ th' Et) as A1. pose proof (flat_set f _ _ _ du' Eu) as A2. rewrite P1 in A1. rewrite P2 in A2.
  apply Permutation_app_inv_l in A1. apply Permutation_app_inv_l in A2. now rewrite A2.
Qed.

Lemma event_follows pc s ths ev : sinv pc s ths -> event_ok sc ev ->
  exists s' ths' pc', hevent sc grow uunm uext uclone ev (sys s ths) = Some (fst (pevent sc ev (map rd ths)), sys s' ths') /\
    snd (pevent sc ev (map rd ths)) = map rd ths' /\ sinv pc' s' ths' /\
    forall t, match ev with Act t' _ => t <> t' | _ => True end -> forall th, nth_error ths t = Some th -> leaves pc pc' s s' th /\ match ev with Act _ _ => nth_error ths' t = Some th | _ => True end.
Proof.
  assert (forall th, leaves pc pc s s th) as Lr by (intros th; split; auto).
  intros I K. destruct ev as [t o|t i u|t k u]; cbn [hevent pevent event_ok] in *.
  - cbn [sys y_views y_mem]. rewrite !nth_error_map. destruct (nth_error ths t) as [th|] eqn:Et; cbn [option_map].
    2:{ exists s, ths, pc. split; [reflexivity|]. split; [reflexivity|]. split; [exact I|]. auto. }
    apply nth_error_split' in Et as (l1 & l2 & -> & <-). destruct (act_step pc s l1 th l2 o I K) as (s' & th' & pc' & E & Ed & I' & L).
    rewrite E. destruct (pstep sc o (rd th)) as [e d'] eqn:Ep. cbn [fst snd w_mem w_msgs w_bufs] in *. exists s', (l1 ++ th' :: l2), pc'.
    split; [|split; [|split]].
    + unfold sys. do 2 f_equal. rewrite <- (set_middle l1 l2 th th'). rewrite map_list_set. reflexivity.
    + rewrite Ed. rewrite <- (set_middle l1 l2 th th'). rewrite map_list_set. reflexivity.
    + exact I'.
    + intros t Ht x Ex. assert (In x (l1 ++ l2) /\ nth_error (l1 ++ th' :: l2) t = Some x) as [Hin Hn].
      { destruct (Nat.lt_ge_cases t (length l1)) as [H|H].
        - rewrite nth_error_app1 in Ex by auto. split; [apply in_or_app; left; eapply nth_error_In; eauto|]. now rewrite nth_error_app1.
        - rewrite nth_error_app2 in Ex |- * by auto. destruct (t - length l1)%nat eqn:D; [exfalso; apply Ht; lia|]. cbn in *. split; [apply in_or_app; right; eapply nth_error_In; eauto|exact Ex]. }
      split; auto.
  - cbn [sys y_views y_mem]. rewrite !nth_error_map. destruct (nth_error ths t) as [th|] eqn:Et; cbn [option_map];
      [|exists s, ths, pc; split; [reflexivity|]; split; [reflexivity|]; split; auto].
    destruct (nth_error ths u) as [uh|] eqn:Eu; cbn [option_map]; [|exists s, ths, pc; split; [reflexivity|]; split; [reflexivity|]; split; auto].
    cbn [lv rd v_msgs v_bufs d_msgs d_bufs]. rewrite !nth_error_map. destruct (nth_error (fst th) i) as [x|] eqn:Ei; cbn [option_map]; [|exists s, ths, pc; split; [reflexivity|]; split; [reflexivity|]; split; auto].
    cbv zeta. rewrite <- !without_map. pose (th' := (without i (fst th), snd th) : thread).
    change (View (map fst (without i (fst th))) (map fst (snd th))) with (lv th'). change (Desk (map snd (without i (fst th))) (map snd (snd th))) with (rd th').
    rewrite <- !map_list_set, !nth_error_map. destruct (nth_error (list_set ths t th') u) as [du|] eqn:Ed; cbn [option_map]; [|exists s, ths, pc; split; [reflexivity|]; split; [reflexivity|]; split; auto].
    pose (du' := (fst du ++ [x], snd du) : thread). exists s, (list_set (list_set ths t th') u du'), pc. cbn [fst snd].
    split; [|split; [|split]].
    + unfold sys. rewrite (map_list_set lv (list_set ths t th') u du'). replace (lv du') with (View (v_msgs (lv du) ++ [fst x]) (v_bufs (lv du))) by (unfold lv, du'; cbn [fst snd v_msgs v_bufs]; now rewrite map_app). reflexivity.
    + rewrite (map_list_set rd (list_set ths t th') u du'). replace (rd du') with (Desk (d_msgs (rd du) ++ [snd x]) (d_bufs (rd du))) by (unfold rd, du'; cbn [fst snd d_msgs d_bufs]; now rewrite map_app). reflexivity.
    + eapply joined_perm; [| |exact I].
      * apply (moved fst ths t u th th' x du du'); auto; [now apply without_perm|]. cbn [du' fst]. symmetry. apply Permutation_cons_append.
      * apply (kept snd ths t u th th' du du'); auto.
    + auto.
  - cbn [sys y_views y_mem]. rewrite !nth_error_map. destruct (nth_error ths t) as [th|] eqn:Et; cbn [option_map];
      [|exists s, ths, pc; split; [reflexivity|]; split; [reflexivity|]; split; auto].
    destruct (nth_error ths u) as [uh|] eqn:Eu; cbn [option_map]; [|exists s, ths, pc; split; [reflexivity|]; split; [reflexivity|]; split; auto].
    cbn [lv rd v_msgs v_bufs d_msgs d_bufs]. rewrite !nth_error_map. destruct (nth_error (snd th) k) as [x|] eqn:Ei; cbn [option_map]; [|exists s, ths, pc; split; [reflexivity|]; split; [reflexivity|]; split; auto].
    cbv zeta. rewrite <- !without_map. pose (th' := (fst th, without k (snd th)) : thread).
    change (View (map fst (fst th)) (map fst (without k (snd th)))) with (lv th'). change (Desk (map snd (fst th)) (map snd (without k (snd th)))) with (rd th').
    rewrite <- !map_list_set, !nth_error_map. destruct (nth_error (list_set ths t th') u) as [du|] eqn:Ed; cbn [option_map]; [|exists s, ths, pc; split; [reflexivity|]; split; [reflexivity|]; split; auto].
    pose (du' := (fst du, snd du ++ [x]) : thread). exists s, (list_set (list_set ths t th') u du'), pc. cbn [fst snd].
    split; [|split; [|split]].
    + unfold sys. rewrite (map_list_set lv (list_set ths t th') u du'). replace (lv du') with (View (v_msgs (lv du)) (v_bufs (lv du) ++ [fst x])) by (unfold lv, du'; cbn [fst snd v_msgs v_bufs]; now rewrite map_app). reflexivity.
    + rewrite (map_list_set rd (list_set ths t th') u du'). replace (rd du') with (Desk (d_msgs (rd du)) (d_bufs (rd du) ++ [snd x])) by (unfold rd, du'; cbn [fst snd d_msgs d_bufs]; now rewrite map_app). reflexivity.
    + eapply joined_perm; [| |exact I].
      * apply (kept fst ths t u th th' du du'); auto.
      * apply (moved snd ths t u th th' x du du'); auto; [now apply without_perm|]. cbn [du' snd]. symmetry. apply Permutation_cons_append.
    + auto.
Qed.
Lemma events_follow evs : forall pc s ths, sinv pc s ths -> Forall (event_ok sc) evs ->
  exists s' ths' pc', hevents sc grow uunm uext uclone evs (sys s ths) = Some (fst (pevents sc evs (map rd ths)), sys s' ths') /\
    snd (pevents sc evs (map rd ths)) = map rd ths' /\ sinv pc' s' ths'.
Proof.
  induction evs as [|ev evs IH]; intros pc s ths I K; [exists s, ths, pc; auto|]. inversion K as [|? ? K1 K2]; subst.
  destruct (event_follows pc s ths ev I K1) as (s1 & ths1 & pc1 & E & Ed & I1 & _). cbn [hevents pevents]. rewrite E. destruct (pevent sc ev (map rd ths)) as [e q1]. cbn [fst snd] in *. subst q1.
  destruct (IH pc1 s1 ths1 I1 K2) as (s2 & ths2 & pc2 & E2 & Ed2 & I2). rewrite E2. destruct (pevents sc evs (map rd ths1)) as [es q2]. cbn [fst snd] in *. eauto 6.
Qed.
Lemma sinv_start n ps : sinv (fun _ => 0%nat) (mkMem [] [] ps) (repeat ([], []) n).
Proof.
  assert (forall B (f : thread -> list B), f ([], []) = [] -> flat_map f (repeat ([], []) n) = []) as E by (intros B f E; induction n; cbn; [reflexivity|]; now rewrite E).
  unfold sinv, joined. rewrite !E by reflexivity. apply inv_start.
Qed.
End Par.

(** * One goroutine among others *)
Lemma alone_step sc t o q d : nth_error q t = Some d -> nth_error (snd (pevent sc (Act t o) q)) t = Some (snd (pstep sc o d)) /\ fst (pevent sc (Act t o) q) = fst (pstep sc o d).
Proof.
  intros E. cbn [pevent]. rewrite E. destruct (pstep sc o d) as [e d']. cbn [fst snd]. split; [|reflexivity]. apply nth_error_set_eq. apply nth_error_Some. congruence.
Qed.
Lemma alone_other sc t t' o q d : t' <> t -> nth_error q t = Some d -> nth_error (snd (pevent sc (Act t' o) q)) t = Some d.
Proof.
  intros N E. cbn [pevent]. destruct (nth_error q t') as [d'|]; [|exact E]. destruct (pstep sc o d') as [e d'']. cbn [snd]. rewrite nth_error_set_neq by congruence. exact E.
Qed.
Lemma alone sc t evs : forall q d, Forall is_act evs -> nth_error q t = Some d ->
  sees t evs (fst (pevents sc evs q)) = fst (prun sc (acts t evs) d) /\ nth_error (snd (pevents sc evs q)) t = Some (snd (prun sc (acts t evs) d)).
Proof.
  induction evs as [|ev evs IH]; intros q d H E; [auto|]. inversion H as [|? ? H1 H2]; subst. destruct ev as [t' o| |]; try contradiction.
  cbn [pevents acts flat_map]. fold (acts t evs). destruct (Nat.eqb_spec t' t) as [->|N].
  - destruct (alone_step sc t o q d E) as [A1 A2]. destruct (pevent sc (Act t o) q) as [e q1]. cbn [fst snd] in *. subst e. cbn [app prun].
    destruct (pstep sc o d) as [e1 d1]. cbn [fst snd] in *. destruct (IH q1 d1 H2 A1) as [B1 B2]. destruct (pevents sc evs q1) as [es q2], (prun sc (acts t evs) d1) as [es1 d2]. cbn [fst snd sees] in *.
    rewrite Nat.eqb_refl. split; [now rewrite B1|exact B2].
  - pose proof (alone_other sc t t' o q d N E) as A. destruct (pevent sc (Act t' o) q) as [e q1]. cbn [fst snd app] in *.
    destruct (IH q1 d H2 A) as [B1 B2]. destruct (pevents sc evs q1) as [es q2]. cbn [fst snd sees] in *. destruct (Nat.eqb_spec t' t); [contradiction|]. auto.
Qed.
