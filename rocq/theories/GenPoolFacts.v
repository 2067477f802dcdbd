(** The code printed for ResetVT and ReturnToVTPool does what the model of Pool.v does. *)
From Coq Require Import ZArith List Bool Lia String.
From Verif Require Import Base Schema Value Helpers Unmarshal Pool Typing MarshalFacts TargetFacts GoSyntax GoPool GenPool.
Import ListNotations.
Open Scope string_scope.
Open Scope Z_scope.
Open Scope list_scope.

(** Two runs with the same outcome and related results. *)
Definition like {A B} (Q : A -> B -> Prop) (a : res unit A) (b : res unit B) : Prop :=
  match a, b with
  | Ok x, Ok y => Q x y
  | Err e _, Err e' _ => e = e'
  | Panic, Panic => True
  | NoFuel, NoFuel => True
  | _, _ => False
  end.
Lemma like_bind {A B A' B'} (Q : A -> B -> Prop) (R : A' -> B' -> Prop) a b f g :
  like Q a b -> (forall x y, a = Ok x -> b = Ok y -> Q x y -> like R (f x) (g y)) -> like R (rbind a f) (rbind b g).
Proof. destruct a, b; cbn; intros H K; try contradiction; auto. Qed.
Lemma like_imp {A B} (Q R : A -> B -> Prop) a b : like Q a b -> (forall x y, Q x y -> R x y) -> like R a b.
Proof. destruct a, b; cbn; auto. Qed.
Lemma like_refl {A} (a : res unit A) : like eq a a.
Proof. destruct a; cbn; auto. Qed.
Lemma like_eq {A} (a b : res unit A) : like eq a b -> a = b.
Proof. destruct a as [|? []| |], b as [|? []| |]; cbn; intros H; try contradiction; congruence. Qed.
Lemma bind_assoc {A B C} (a : res unit A) (f : A -> res unit B) (g : B -> res unit C) :
  rbind (rbind a f) g = rbind a (fun x => rbind (f x) g).
Proof. now destruct a. Qed.
Lemma bind_ret {A} (a : res unit A) : rbind a Ok = a.
Proof. now destruct a. Qed.

Lemma slot_set r s x : slot (list_set r s x) s = x \/ (slot r s = VNil /\ slot (list_set r s x) s = VNil).
Proof.
  unfold slot. revert s. induction r as [|y r IH]; intros [|s]; cbn; auto.
Qed.
Lemma slot_set_at r s x : slot r s <> VNil -> slot (list_set r s x) s = x.
Proof. intros H. destruct (slot_set r s x) as [E|[E _]]; [exact E|contradiction]. Qed.
Lemma slot_set_same r s : slot (list_set r s (slot r s)) s = slot r s.
Proof. destruct (slot_set r s (slot r s)) as [E|[E E']]; [exact E|congruence]. Qed.

Section Fields.
Variable sc : schema.
Hypothesis W : wf_schema sc = true.
Variable m : nat.
Variables (rec reset ret : nat -> val -> res unit (val * puts)).
Variables (slots : list val) (u : list Z) (hid : list (list val)).
Let N := vdepth (VMsg slots u hid).
Hypothesis HR : forall m' x, shouldpool sc m' = true -> (vdepth x < N)%nat ->
  reset m' x = match x with VMsg _ _ _ => rec m' x | _ => Ok (x, []) end.
Hypothesis HT : forall m' x, shouldpool sc m' = true -> (vdepth x < N)%nat ->
  like (fun a b => snd a = b) (ret m' x) (return_sub rec m' x).

Notation exec := (pexec sc m reset ret).
Lemma exec_app l l' st : exec (pblock (l ++ l')) st = rbind (exec (pblock l) st) (exec (pblock l')).
Proof.
  revert st. induction l as [|p l IH]; intros st; cbn [app pblock pexec]; [reflexivity|].
  rewrite bind_assoc. destruct (exec p st); cbn; auto.
Qed.
Lemma exec_one p st : exec (pblock [p]) st = exec p st.
Proof. cbn [pblock pexec]. apply bind_ret. Qed.

Lemma member_type_of f : In f (md_fields (md_of sc m)) -> is_oneof f = false -> member_type sc m (f_slot f) = Some (f_ty f).
Proof.
  intros Hf No. unfold member_type.
  destruct (find _ _) as [h|] eqn:Fd.
  - apply find_some in Fd as [Hh Es]. apply andb_true_iff in Es as [Es _]. apply Nat.eqb_eq in Es. cbn. do 2 f_equal.
    assert (forall x y : fdesc, {x = y} + {x <> y}) as De by (repeat decide equality).
    destruct (De h f) as [|Ne]; [assumption|].
    destruct (wf_compat sc m h f W Hh Hf Ne) as [_ Q]. destruct (Q Es) as [_ Q2]. congruence.
  - apply find_none with (x := f) in Fd; [|exact Hf]. now rewrite Nat.eqb_refl, No in Fd.
Qed.

Lemma elems m' l : (forall x, In x l -> (vdepth x < N)%nat) -> forall st,
  like (fun a b => fst a = fst b /\ q_m (snd a) = q_m st /\ q_vars (snd a) = q_vars st /\ q_puts (snd a) = q_puts st ++ snd b)
    (pelems (exec (PCall PElem m' (if shouldpool sc m' then HResetVT else HReset))) l st) (reset_elems sc rec m' l).
Proof.
  induction l as [|x l IH]; intros Hd st; cbn [pelems reset_elems]; [cbn; now rewrite app_nil_r|].
  apply like_bind with (Q := fun a b => q_mm a = fst b /\ q_m a = q_m st /\ q_vars a = q_vars st /\ q_puts a = q_puts st ++ snd b).
  - cbn [pexec pcall q_mm]. rewrite <- (bind_ret (if md_pool (md_of sc m') then _ else _)).
    apply like_bind with (Q := eq).
    + unfold shouldpool in *. destruct (md_pool (md_of sc m')) eqn:P.
      * rewrite HR by (auto; apply Hd; now left). apply like_refl.
      * apply like_refl.
    + intros a ? _ _ <-. cbn. auto.
  - intros st1 b _ _ (E1 & E2 & E3 & E4).
    apply like_bind with (Q := fun a b => fst a = fst b /\ q_m (snd a) = q_m st1 /\ q_vars (snd a) = q_vars st1 /\ q_puts (snd a) = q_puts st1 ++ snd b).
    + apply IH. intros y Hy. apply Hd. now right.
    + intros a c _ _ (F1 & F2 & F3 & F4). cbn. rewrite F2, F3, F4, E1, E2, E3, E4, F1, app_assoc. auto.
Qed.

(** The members a field finds: those of the message as it was, except that the message in a
    oneof may have been handed back by the statements of another field of the oneof. *)
Definition agree (f : fdesc) (cur : list val) : Prop :=
  slot cur (f_slot f) = slot slots (f_slot f) \/
  (is_oneof f = true /\ exists n x x', slot slots (f_slot f) = VOneof n x /\ slot cur (f_slot f) = VOneof n x' /\ n <> f_num f).

Definition after_field (i : nat) (f : fdesc) (cur : list val) (st st' : pstate_go) (b : option (val * list val) * puts) : Prop :=
  (exists cur', q_m st' = VMsg cur' u hid /\ (forall s, s <> f_slot f -> slot cur' s = slot cur s) /\
     (is_oneof f = true -> slot cur' (f_slot f) = slot cur (f_slot f) \/
        exists x x', slot slots (f_slot f) = VOneof (f_num f) x /\ slot cur' (f_slot f) = VOneof (f_num f) x')) /\
  q_vars st' = match fst b with Some xh => (i, xh) :: q_vars st | None => q_vars st end /\
  q_puts st' = q_puts st ++ snd b.

Lemma stays i f cur st : q_m st = VMsg cur u hid -> after_field i f cur st st (None, []).
Proof. intros E. split; [exists cur; auto|]. cbn. now rewrite app_nil_r. Qed.

Lemma truncate_cleared k v : truncate (pcleared k v) = truncate v.
Proof. now destruct v. Qed.
Lemma cleared_refers k v : (k = KString \/ k = KBytes) -> filter refers (vlist (pcleared k v)) = [].
Proof. intros K. destruct v; try reflexivity. cbn. induction l as [|x l IH]; [reflexivity|]. cbn. destruct K as [-> | ->]; cbn; exact IH. Qed.

Lemma field_run i f cur st : In f (md_fields (md_of sc m)) -> q_m st = VMsg cur u hid -> agree f cur ->
  like (after_field i f cur st) (exec (pblock (fst (gen_reset_field (shouldpool sc) i f))) st) (reset_field sc rec f slots hid).
Proof.
  intros Hf Em Ag. unfold gen_reset_field, reset_field.
  destruct (f_ty f) as [lab k|kk vk] eqn:Tf; [|cbn; apply stays, Em].
  destruct (is_oneof f) eqn:Io.
  { unfold is_oneof in Io. rewrite Tf in Io. destruct lab; try discriminate.
    assert (forall m', like (after_field i f cur st)
      (exec (pblock (if shouldpool sc m' then [PIfOneof (f_slot f) (f_num f) (PCall (PIn (f_slot f) (f_num f)) m' HReturn)] else [])) st)
      match slot slots (f_slot f) with
      | VOneof n x => if (n =? f_num f) && md_pool (md_of sc m') then do p <- return_sub rec m' x; Ok (None, p) else Ok (None, [])
      | _ => Ok (None, [])
      end) as Main.
    { intros m'. fold (shouldpool sc m'). destruct (shouldpool sc m') eqn:P.
      2:{ cbn [pblock pexec]. destruct (slot slots (f_slot f)); try (apply stays, Em). rewrite andb_false_r. apply stays, Em. }
      rewrite exec_one. cbn [pexec]. rewrite Em.
      destruct Ag as [Ag|(_ & n & x & x' & E1 & E2 & Ne)].
      - rewrite Ag. destruct (slot slots (f_slot f)) as [| | | | | | |n x| | |] eqn:Es; try (apply stays, Em).
        rewrite andb_true_r. destruct (Z.eqb_spec n (f_num f)) as [->|Ne]; [|apply stays, Em].
        apply like_bind with (Q := fun a b => snd a = b).
        + cbn [pcall]. apply HT; auto. unfold N. pose proof (depth_slot slots (f_slot f) u hid) as Dp. rewrite Es in Dp. cbn [vdepth] in Dp |- *. lia.
        + intros [x' p] ? _ _ <-. cbn. unfold after_field, padd, pset. rewrite Em. cbn. split; [|auto].
          eexists. split; [reflexivity|]. split; [intros s Hs; apply slot_set_neq; congruence|]. intros _. right.
          exists x, x'. split; [exact Es|]. apply slot_set_at. rewrite Ag. discriminate.
      - rewrite E2, E1. destruct (Z.eqb_spec n (f_num f)) as [|_]; [contradiction|]. cbn. apply stays, Em. }
    destruct (classify k); try (cbn; apply stays, Em); apply Main. }
  destruct Ag as [Ag|(Io' & _)]; [|congruence].
  assert (member_type sc m (f_slot f) = Some (f_ty f)) as Mt by now apply member_type_of.
  rewrite Tf in Mt.
  assert (forall m', like (after_field i f cur st)
      (exec (pblock (if shouldpool sc m' then [PCall (PField (f_slot f)) m' HReturn] else [])) st)
      (if md_pool (md_of sc m') then do p <- return_sub rec m' (slot slots (f_slot f)); Ok (None, p) else Ok (None, []))) as Sub.
  { intros m'. fold (shouldpool sc m'). destruct (shouldpool sc m') eqn:P; [|cbn; apply stays, Em].
    rewrite exec_one. cbn [pexec]. rewrite Em, Ag. apply like_bind with (Q := fun a b => snd a = b).
    - cbn [pcall]. apply HT; auto. apply depth_slot.
    - intros [x' p] ? _ _ <-. cbn. unfold after_field, padd, pset. rewrite Em. cbn. split; [|auto].
      eexists. split; [reflexivity|]. split; [intros s Hs; apply slot_set_neq; congruence|congruence]. }
  assert (forall a h, a = slot slots (f_slot f) -> after_field i f cur st
    (mkP (q_m st) (q_mm st) ((i, (truncate a, h)) :: q_vars st) (q_puts st)) (Some (truncate (slot slots (f_slot f)), h), [])) as Keep.
  { intros a h ->. split; [exists cur; auto|]. cbn. now rewrite app_nil_r. }
  assert (match lab with LRepeated _ => True | LOneof => True | _ =>
    like (after_field i f cur st)
    (exec (pblock (fst (match classify k with
      | CMsg m' | CGrp m' => (if shouldpool sc m' then [PCall (PField (f_slot f)) m' HReturn] else [], false)
      | CByt => ([PSave i (f_slot f)], true)
      | _ => ([], false) end))) st)
    (match classify k with
      | CMsg m | CGrp m => if md_pool (md_of sc m) then do p <- return_sub rec m (slot slots (f_slot f)); Ok (None, p) else Ok (None, [])
      | CByt => Ok (Some (truncate (slot slots (f_slot f)), []), [])
      | _ => Ok (None, [])
      end) end) as Sing.
  { destruct (classify k) eqn:Ck; try (destruct lab; cbn [fst]; auto; cbn; apply stays, Em).
    all: destruct lab; cbn [fst]; try exact I; try apply Sub;
      (rewrite exec_one; cbn [pexec]; rewrite Em, Mt, Ck, <- Em; apply Keep; exact Ag). }
  destruct lab as [| | |pk|]; try exact Sing.
  2:{ exfalso. unfold is_oneof in Io. now rewrite Tf in Io. }
  clear Sing Sub. cbn [fst]. rewrite exec_app.
  assert (forall m', (classify k = CMsg m' \/ classify k = CGrp m') -> like (after_field i f cur st)
    (rbind (exec (pblock [PRange (f_slot f) (PCall PElem m' (if shouldpool sc m' then HResetVT else HReset))]) st) (exec (pblock [PSave i (f_slot f)])))
    (do r <- reset_elems sc rec m' (vlist (slot slots (f_slot f)));
     Ok (Some (truncate (slot slots (f_slot f)), fst r ++ nth (f_slot f) hid []), snd r))) as Lst.
  { intros m' Ck. rewrite exec_one.
    remember (PCall PElem m' (if shouldpool sc m' then HResetVT else HReset)) as body eqn:Eb. cbn [pexec]. rewrite Em, Ag.
    assert (forall st1 cur1, q_m st1 = VMsg cur1 u hid -> exec (pblock [PSave i (f_slot f)]) st1 =
      Ok (mkP (q_m st1) (q_mm st1) ((i, (truncate (slot cur1 (f_slot f)), vlist (slot cur1 (f_slot f)) ++ nth (f_slot f) hid [])) :: q_vars st1) (q_puts st1))) as Sv.
    { intros st1 cur1 E1. rewrite exec_one. cbn [pexec]. rewrite E1, Mt. destruct Ck as [-> | ->]; reflexivity. }
    destruct (slot slots (f_slot f)) as [| | | | |l| | | | |] eqn:Es;
      try (cbn [vlist reset_elems rbind]; rewrite (Sv st cur Em), Ag; cbn [fst snd vlist app]; apply (Keep _ _ eq_refl)).
    rewrite bind_assoc. cbn [vlist].
    apply like_bind with (Q := fun a b => fst a = fst b /\ q_m (snd a) = q_m st /\ q_vars (snd a) = q_vars st /\ q_puts (snd a) = q_puts st ++ snd b).
    - subst body. apply elems. intros x Hx. unfold N. pose proof (depth_slot slots (f_slot f) u hid) as Dp. rewrite Es in Dp.
      pose proof (depth_list x l Hx). lia.
    - intros [l1 st1] [l2 p] _ _ (E1 & E2 & E3 & E4). cbn [fst snd] in *. subst l2. cbn [rbind].
      assert (q_m (pset st1 (f_slot f) (VList l1)) = VMsg (list_set cur (f_slot f) (VList l1)) u hid) as Eq
        by (unfold pset; rewrite E2, Em; reflexivity).
      rewrite (Sv _ _ Eq), Eq, slot_set_at by (rewrite Ag; discriminate). cbn [like].
      assert (q_vars (pset st1 (f_slot f) (VList l1)) = q_vars st1 /\ q_puts (pset st1 (f_slot f) (VList l1)) = q_puts st1) as [Ev Ep]
        by (unfold pset; rewrite E2, Em; auto).
      rewrite Ev, Ep, E3, E4. split; [|auto]. eexists. split; [reflexivity|]. split; [intros s Hs; apply slot_set_neq; congruence|congruence]. }
  assert ((k = KString \/ k = KBytes) -> (classify k = CStr \/ classify k = CByt) -> like (after_field i f cur st)
    (rbind (exec (pblock [PClear (f_slot f)]) st) (exec (pblock [PSave i (f_slot f)])))
    (Ok (Some (truncate (slot slots (f_slot f)), []), []))) as Clr.
  { intros Hk Ck. rewrite exec_one. cbn [pexec]. rewrite Em, Mt. cbn [rbind]. rewrite exec_one. cbn [pexec].
    unfold pset. rewrite Em. cbn [q_m q_mm q_vars q_puts]. rewrite Mt.
    assert (slot (list_set cur (f_slot f) (pcleared k (slot cur (f_slot f)))) (f_slot f) = pcleared k (slot slots (f_slot f))) as Ec.
    { rewrite Ag. destruct (slot_set cur (f_slot f) (pcleared k (slot slots (f_slot f)))) as [E|[E E']]; [exact E|].
      rewrite E', <- Ag, E. reflexivity. }
    rewrite Ec, truncate_cleared, cleared_refers by exact Hk.
    assert (forall A (a b : A), match classify k with CMsg _ | CGrp _ => a | CStr | CByt => b | _ => a end = b) as Sel
      by (intros; destruct Ck as [-> | ->]; reflexivity).
    destruct Ck as [-> | ->]; cbn; (split; [|cbn; now rewrite app_nil_r]);
      (eexists; split; [reflexivity|]; split; [intros s Hs; apply slot_set_neq; congruence|congruence]). }
  destruct (classify k) eqn:Ck; try (apply Lst; auto; fail);
    try (apply Clr; [destruct k; try discriminate; auto|auto]; fail);
    (cbn [pblock pexec rbind app]; rewrite Em, Mt, Ck, <- Em; cbn [rbind like]; apply Keep; exact Ag).
Qed.

(** The walk over the fields in two parts: what is saved, and the message made of it. *)
Fixpoint saves (fs : list fdesc) : res unit (list (nat * (val * list val)) * puts) :=
  match fs with
  | [] => Ok ([], [])
  | f :: fs' =>
      do r <- reset_field sc rec f slots hid;
      do r' <- saves fs';
      Ok (match fst r with Some xh => (f_slot f, xh) :: fst r' | None => fst r' end, snd r ++ snd r')
  end.
Definition restored (l : list (nat * (val * list val))) (a : list val) : list val := fold_left (fun a e => list_set a (fst e) (fst (snd e))) l a.
Definition restored_hid (l : list (nat * (val * list val))) (h : list (list val)) : list (list val) :=
  fold_left (fun h e => list_set h (fst e) (snd (snd e))) l h.
Lemma fields_saves fs : forall acc acch,
  reset_fields sc rec slots hid fs acc acch = do r <- saves fs; Ok (restored (fst r) acc, restored_hid (fst r) acch, snd r).
Proof.
  induction fs as [|f fs IH]; intros acc acch; cbn [reset_fields saves]; [reflexivity|].
  destruct (reset_field sc rec f slots hid) as [[[[x h]|] p]| | |]; cbn [rbind fst snd]; try reflexivity;
    rewrite IH; destruct (saves fs) as [[l q]| | |]; cbn; reflexivity.
Qed.

Definition saved_as (vars : list (nat * (val * list val))) (e : nat * nat) (d : nat * (val * list val)) : Prop :=
  fst e = fst d /\ pvar (snd e) vars = Some (snd d).
Lemma gen_saved i f p b : reset_field sc rec f slots hid = Ok (b, p) ->
  snd (gen_reset_field (shouldpool sc) i f) = match b with Some _ => true | None => false end.
Proof.
  unfold reset_field, gen_reset_field. intros H.
  destruct (f_ty f) as [[| | | |] k|kk vk]; [destruct (classify k)..|];
    repeat match type of H with
    | context [if ?x then _ else _] => destruct x
    | context [match ?x with _ => _ end] => destruct x
    | context [rbind ?x _] => destruct x; cbn [rbind] in H
    end; try discriminate; injection H as <- <-; reflexivity.
Qed.
Lemma walk fs : incl fs (md_fields (md_of sc m)) -> pairwise compatible fs = true ->
  forall i cur st, q_m st = VMsg cur u hid -> (forall f, In f fs -> agree f cur) ->
  like (fun st' r => (exists cur', q_m st' = VMsg cur' u hid) /\ q_puts st' = q_puts st ++ snd r /\
          (forall j, (j < i)%nat -> pvar j (q_vars st') = pvar j (q_vars st)) /\
          Forall2 (saved_as (q_vars st')) (snd (gen_reset_fields (shouldpool sc) i fs)) (fst r))
    (exec (pblock (fst (gen_reset_fields (shouldpool sc) i fs))) st) (saves fs).
Proof.
  induction fs as [|f fs IH]; intros Hi Hc i cur st Em Ag; cbn [gen_reset_fields saves].
  { cbn. rewrite app_nil_r. repeat split; eauto. }
  cbn [pairwise] in Hc. apply andb_true_iff in Hc as [Hc Hc']. rewrite forallb_forall in Hc.
  pose proof (field_run i f cur st (Hi f (or_introl eq_refl)) Em (Ag f (or_introl eq_refl))) as FR.
  pose proof (gen_saved i f) as GS.
  destruct (gen_reset_field (shouldpool sc) i f) as [p s]. cbn [fst snd] in FR, GS.
  destruct (gen_reset_fields (shouldpool sc) (if s then S i else i) fs) as [p' l] eqn:Eg. cbn [fst snd]. rewrite exec_app.
  apply like_bind with (Q := after_field i f cur st); [exact FR|]. clear FR.
  intros st1 [b q] _ Er ((cur1 & E1 & Ho & Hs) & Ev & Ep). cbn [fst snd] in *. specialize (GS q b Er).
  assert (forall g, In g fs -> agree g cur1) as Ag1.
  { intros g Hg. specialize (Hc g Hg). unfold compatible in Hc. apply andb_true_iff in Hc as [Cn Cs].
    apply negb_true_iff in Cn. apply Z.eqb_neq in Cn.
    destruct (Nat.eq_dec (f_slot g) (f_slot f)) as [Es|Es].
    - rewrite Es, Nat.eqb_refl in Cs. cbn in Cs. apply andb_true_iff in Cs as [Of Og].
      destruct (Hs Of) as [Hk|(x & x' & Hx & Hx')].
      + specialize (Ag g (or_intror Hg)). unfold agree in *. rewrite Es in *. rewrite Hk. exact Ag.
      + right. split; [exact Og|]. rewrite Es. eauto 6.
    - specialize (Ag g (or_intror Hg)). unfold agree in *. rewrite (Ho _ Es). exact Ag. }
  specialize (IH (fun g Hg => Hi g (or_intror Hg)) Hc' (if s then S i else i) cur1 st1 E1 Ag1). rewrite Eg in IH. cbn [fst snd] in IH.
  rewrite <- (bind_ret (exec (pblock p') st1)). eapply like_bind; [exact IH|].
  intros st2 r _ _ (Hm & Hp & Hj & Hf). cbn [like fst snd]. split; [exact Hm|]. split; [now rewrite Hp, Ep, app_assoc|].
  rewrite GS in *. destruct b as [xh|].
  - split.
    + intros j Hj'. rewrite Hj, Ev by lia. cbn [pvar]. destruct (Nat.eqb_spec i j); [lia|reflexivity].
    + constructor; [|exact Hf]. split; [reflexivity|]. cbn [snd]. rewrite Hj, Ev by lia. cbn [pvar]. now rewrite Nat.eqb_refl.
  - rewrite Ev in Hj. auto.
Qed.

Lemma restore l d : forall st a h, q_m st = VMsg a [] h -> Forall2 (saved_as (q_vars st)) l d ->
  exec (pblock (map (fun e => PRestore (fst e) (snd e)) l)) st =
    Ok (mkP (VMsg (restored d a) [] (restored_hid d h)) (q_mm st) (q_vars st) (q_puts st)).
Proof.
  revert d. induction l as [|[s i] l IH]; intros d st a h Em F; inversion F as [|? [s' [x y]] ? d' [E1 E2] F']; subst; cbn [map pblock pexec].
  - cbn. rewrite <- Em. now destruct st.
  - cbn [fst snd] in *. subst s'. rewrite Em, E2. cbn [rbind]. erewrite (IH d'); [|reflexivity|exact F']. reflexivity.
Qed.

Lemma reset_run : like (fun st r => q_m st = fst r /\ q_puts st = snd r)
  (exec (gen_reset (shouldpool sc) m (md_of sc m)) (pstart (VMsg slots u hid))) (reset_body sc rec m (VMsg slots u hid)).
Proof.
  unfold gen_reset, reset_body. rewrite fields_saves, bind_assoc.
  pose proof (walk (md_fields (md_of sc m)) (incl_refl _) (proj2 (proj1 (andb_true_iff _ _) (wf_md sc m W))) 0 slots (pstart (VMsg slots u hid)) eq_refl (fun f _ => or_introl eq_refl)) as Wk.
  destruct (gen_reset_fields (shouldpool sc) 0 (md_fields (md_of sc m))) as [p l]. cbn [fst snd] in Wk. cbn [pexec pstart q_m].
  rewrite exec_app. eapply like_bind; [exact Wk|]. clear Wk.
  intros st [d q] _ _ ([cur Em] & Ep & _ & F). cbn [fst snd rbind] in *. rewrite exec_app, exec_one. cbn [pexec pcall]. rewrite Em. cbn [rbind fst snd].
  unfold new_msg. erewrite restore; [|reflexivity|exact F]. cbn. rewrite Ep. cbn. rewrite app_nil_r. auto.
Qed.
End Fields.

Theorem run_ResetVT_ok sc : wf_schema sc = true -> forall n k m v, (vdepth v < n)%nat -> (vdepth v < k)%nat -> md_pool (md_of sc m) = true ->
  run_ResetVT sc n m v = reset_msg sc k m v.
Proof.
  intros W. induction n as [|n IH]; intros [|k] m v Hn Hk P; try lia. cbn [run_ResetVT reset_msg].
  unfold shouldpool at 1. rewrite P.
  assert (forall st, q_m st = v -> match v with VMsg _ _ _ => False | _ => True end ->
    pexec sc m (run_ResetVT sc n) (run_return sc (run_ResetVT sc n)) (gen_reset (shouldpool sc) m (md_of sc m)) st = Ok st) as Nil.
  { intros st E H. unfold gen_reset. destruct (gen_reset_fields _ _ _). cbn [pexec]. rewrite E. destruct v; try reflexivity; contradiction. }
  destruct v as [| | | | | | | |slots u hid| |]; try (rewrite Nil by auto; reflexivity). clear Nil.
  apply like_eq. rewrite <- (bind_ret (reset_body _ _ _ _)). eapply like_bind.
  - apply (reset_run sc W m (reset_msg sc k)).
    + intros m' x P' D. rewrite (IH k) by (exact P' || lia). destruct k as [|k]; [lia|]. now destruct x.
    + intros m' x P' D. unfold run_return. rewrite P'. unfold gen_return, return_sub. cbn [pexec pstart q_m].
      destruct x as [| | | | | | | |s u' h| |]; try (cbn; auto; fail).
      cbn [pblock pexec pcall q_m pstart]. rewrite (IH k) by (exact P' || lia). destruct (reset_msg sc k m' (VMsg s u' h)) as [[y q]| | |]; cbn; auto.
  - intros st [y q] _ _ [E1 E2]. cbn in *. now rewrite E1, E2.
Qed.
