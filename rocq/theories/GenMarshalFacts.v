(** The printed marshalling methods do what Marshal.v says: running the statements. *)
From Coq Require Import ZArith List Bool Lia String.
From Verif Require Import Base BaseFacts Schema Value Helpers Size Marshal Typing VarintFacts SimFacts MarshalTop OrderFacts
  GoSyntax GoSem GenSize GenSizeFacts GoMarshal GenMarshal.
Import ListNotations.
Open Scope string_scope.
Open Scope Z_scope.
Open Scope list_scope.

(** * Buffers *)
Lemma zset_inv l i b l' : zset l i b = Some l' -> 0 <= i < zlen l /\ zlen l' = zlen l.
Proof.
  unfold zset. destruct ((0 <=? i) && (i <? zlen l)) eqn:E; [|discriminate]. intros H.
  assert (l' = firstn (Z.to_nat i) l ++ b :: skipn (S (Z.to_nat i)) l) as -> by congruence.
  split; [lia|]. unfold zlen in *. rewrite app_length, firstn_length.
  change (List.length (b :: skipn (S (Z.to_nat i)) l)) with (S (List.length (skipn (S (Z.to_nat i)) l))).
  rewrite skipn_length. lia.
Qed.
Lemma zcopy_inv l i bs l' : zcopy l i bs = Some l' -> 0 <= i <= zlen l /\ zlen l' = zlen l.
Proof.
  unfold zcopy. destruct ((0 <=? i) && (i <=? zlen l)) eqn:E; [|discriminate]. intros H. injection H as <-.
  split; [lia|]. unfold zlen in *. rewrite !app_length, !firstn_length, skipn_length. lia.
Qed.
Lemma loop_inv fuel : forall buf off v buf' off', varint_loop fuel buf off v = Ok (buf', off') ->
  0 <= off /\ off < off' <= zlen buf /\ zlen buf' = zlen buf.
Proof.
  induction fuel as [|fuel IH]; intros buf off v buf' off' H; cbn [varint_loop] in H; [discriminate|].
  destruct (128 <=? v).
  - destruct (zset buf off _) as [b|] eqn:E; cbn [orpanic rbind] in H; [|discriminate].
    apply zset_inv in E as [E1 E2]. apply IH in H. rewrite <- E2. lia.
  - destruct (zset buf off _) as [b|] eqn:E; cbn [orpanic rbind] in H; [|discriminate].
    apply zset_inv in E as [E1 E2]. injection H as <- <-. lia.
Qed.
Lemma encode_inv buf i v buf' i' : EncodeVarint buf i v = Ok (buf', i') ->
  0 <= i' <= i /\ zlen buf' = zlen buf.
Proof.
  unfold EncodeVarint. destruct (varint_loop _ _ _ _) as [[b o]| | |] eqn:E; cbn [rbind]; try discriminate.
  cbn [fst]. intros H. injection H as <- <-. apply loop_inv in E. pose proof (sov_pos v). lia.
Qed.
Lemma encode_res buf i v : (exists r, EncodeVarint buf i v = Ok r) \/ EncodeVarint buf i v = Panic
  \/ EncodeVarint buf i v = NoFuel.
Proof.
  unfold EncodeVarint.
  assert (forall fuel buf off v, (exists r, varint_loop fuel buf off v = Ok r) \/ varint_loop fuel buf off v = Panic
    \/ varint_loop fuel buf off v = NoFuel) as H.
  { clear. induction fuel as [|fuel IH]; intros; cbn [varint_loop]; [auto|].
    destruct (128 <=? v); destruct (zset _ _ _); cbn [orpanic rbind]; eauto. }
  destruct (H (varint_fuel v) buf (i - SizeOfVarint v) v) as [[r E]|[E|E]]; rewrite E; cbn [rbind]; eauto.
Qed.

(** * Environments: everything but [i] stays *)
Record inv (K : Z -> env) : Prop := {
  inv_get : forall i, lookup "i" (K i) = Some (GInt i);
  inv_set : forall i j, assign "i" (GInt j) (K i) = Some (K j);
  inv_len : forall i j, List.length (K i) = List.length (K j) }.

Lemma inv_cons K x g : String.eqb "i" x = false -> inv K -> inv (fun i => (x, g) :: K i).
Proof.
  intros N [G S L]. split; intros; cbn [lookup assign List.length]; rewrite ?N.
  - apply G.
  - now rewrite S.
  - now rewrite (L i j).
Qed.

(** Variables declared on the way. *)
Definition local (x : string) : bool :=
  existsb (String.eqb x) ["size"; "err"; "ok"; "vtmsg"; "encoded"].
Definition locals (Q : env) : Prop := forall x g, In (x, g) Q -> local x = true.
Lemma locals_nil : locals []. Proof. intros x g []. Qed.
Lemma locals_app P Q : locals P -> locals Q -> locals (P ++ Q).
Proof. intros HP HQ x g H. apply in_app_or in H as [H|H]; [exact (HP x g H)|exact (HQ x g H)]. Qed.
Lemma locals_cons x g Q : local x = true -> locals Q -> locals ((x, g) :: Q).
Proof. intros H HQ y h [E|E]; [injection E as <- <-; exact H|exact (HQ y h E)]. Qed.
Lemma eqb_local x y : local y = true -> local x = false -> String.eqb x y = false.
Proof.
  intros Hy Hx. destruct (String.eqb_spec x y) as [->|]; [congruence|reflexivity].
Qed.
Lemma inv_app K Q : locals Q -> inv K -> inv (fun i => Q ++ K i).
Proof.
  induction Q as [|[x g] Q IH]; intros L I; [exact I|].
  apply (inv_cons (fun i => Q ++ K i)).
  - apply eqb_local; [exact (L x g (or_introl eq_refl))|reflexivity].
  - apply IH; [|exact I]. intros y h Hy. apply (L y h). now right.
Qed.
Lemma lookup_locals Q x E : locals Q -> local x = false -> lookup x (Q ++ E) = lookup x E.
Proof.
  induction Q as [|[y g] Q IH]; intros L N; [reflexivity|]. cbn [app lookup].
  rewrite (eqb_local x y (L y g (or_introl eq_refl)) N).
  apply IH; auto. intros z h Hz. apply (L z h). now right.
Qed.

(** Expressions that do not mention such variables. *)
Fixpoint avoid (e : expr) : bool :=
  match e with
  | EVar x | EPrefix x => negb (local x)
  | EInt _ | ENil | EHex _ | ERequiredErr _ => true
  | ESel e _ | EStar e | ELen e | EU64 e | EHelper _ e | EMeth e _ | EProto _ e | ECast _ e | ECastIn _ e
  | EPar e | EU32 e | EU8 e | EF64 e | EF32 e | EShl e _ | EShr e _ => avoid e
  | EAdd a b | EMul a b | EEq a b | ENe a b | EGt a b | EIdx a b | ESub a b | EXor a b | EAnd a b | EOr a b =>
      avoid a && avoid b
  end.
Lemma eval_locals sc call Q E e : locals Q -> avoid e = true -> eval sc call (Q ++ E) e = eval sc call E e.
Proof.
  intros L. induction e; cbn [avoid eval]; intros A; try reflexivity;
    try (apply andb_true_iff in A as [A1 A2]);
    try (rewrite IHe by assumption; reflexivity); try (rewrite IHe1, IHe2 by assumption; reflexivity).
  - apply negb_true_iff in A. now rewrite lookup_locals.
  - apply negb_true_iff in A. now rewrite lookup_locals.
Qed.

Section Run.
Variable sc : schema.
Variable dp : nat -> dispatch.
Variable strict : bool.
Hypothesis W : wf_schema sc = true.
Hypothesis D : forall m, dp m <> DOther -> md_foreign (md_of sc m) = false.
Variable call : gval -> string -> option gval.
Variable rounds : nat.
Hypothesis HR : (10 <= rounds)%nat.

Notation meth := (meth_sized strict).

Section Body.
Variable callee : gval -> list Z -> res unit (list Z * Z).
Variable rec : nat -> val -> list Z -> res unit (list Z * Z).
Variable depth : nat.

(** A call returns what the model returns, if that is a result or an error. *)
Definition same (r s : res unit (list Z * Z)) (buf : list Z) : Prop :=
  match r with
  | Ok (buf', n) => s = Ok (buf', n) /\ zlen buf' = zlen buf /\ 0 <= n <= zlen buf
  | Err e _ => s = Err e tt
  | _ => True
  end.
Hypothesis C : forall m v buf, wt_ptrmsg sc m v -> (vdepth v < depth)%nat ->
  md_foreign (md_of sc m) = false -> zlen buf < imax -> same (rec m v buf) (callee (GV (TMsg m) v) buf) buf.

Notation run := (mexec sc call callee meth rounds).
Notation ev := (eval sc call).

(** The statement goes from [(buf, i)] to what [r] says; [P] limits what it may declare. *)
Definition sim (P : env -> Prop) (K : Z -> env) (buf : list Z) (i : Z) (r : mres) (o : mout) : Prop :=
  match r with
  | Ok (buf', i') => zlen buf' = zlen buf /\ 0 <= i' <= i /\ exists Q, P Q /\ o = MNext (Q ++ K i') buf'
  | Err e _ => exists b g, o = MRet b g (Some e)
  | _ => True
  end.
Definition none (Q : env) : Prop := Q = [].
Definition any (Q : env) : Prop := True.

Lemma sim_weak (P P' : env -> Prop) K buf i r o : (forall Q, P Q -> P' Q) -> sim P K buf i r o -> sim P' K buf i r o.
Proof.
  intros H. destruct r as [[buf' i']| | |]; cbn [sim]; auto.
  intros (A & B & Q & HQ & E). repeat split; try tauto. exists Q. auto.
Qed.
Lemma sim_none (P : env -> Prop) K buf i r o : P [] -> sim none K buf i r o -> sim P K buf i r o.
Proof. intros H. apply sim_weak. intros Q ->. exact H. Qed.

Lemma block_app num a b E buf :
  run num (mblock (a ++ b)) E buf =
  match run num (mblock a) E buf with MNext E' buf' => run num (mblock b) E' buf' | o => o end.
Proof.
  revert E buf. induction a as [|s a IH]; intros E buf; [reflexivity|].
  cbn [app mblock mexec]. destruct (run num s E buf) as [E' buf'| |]; [apply IH|reflexivity|reflexivity].
Qed.
Lemma block_one num s E buf : run num (mblock [s]) E buf = run num s E buf.
Proof. cbn [mblock mexec]. now destruct (run num s E buf). Qed.

(** The statements one after the other. *)
Lemma sim_seq (P P' P2 : env -> Prop) K num a b buf i r f :
  sim P K buf i r (run num (mblock a) (K i) buf) ->
  (forall Q buf' i', P Q -> zlen buf' = zlen buf -> 0 <= i' <= i -> r = Ok (buf', i') ->
     sim P' (fun j => Q ++ K j) buf' i' (f (buf', i')) (run num (mblock b) (Q ++ K i') buf')) ->
  (forall Q Q', P Q -> P' Q' -> P2 (Q' ++ Q)) ->
  sim P2 K buf i (rbind r f) (run num (mblock (a ++ b)) (K i) buf).
Proof.
  intros H1 H2 HP. rewrite block_app. destruct r as [[buf' i']|e []| |]; cbn [rbind]; try exact I.
  - destruct H1 as (L & B & Q & HQ & ->). specialize (H2 Q buf' i' HQ L B eq_refl).
    destruct (f (buf', i')) as [[buf2 i2]| | |]; cbn [sim] in *; auto.
    destruct H2 as (L2 & B2 & Q2 & HQ2 & E). split; [lia|]. split; [lia|]. exists (Q2 ++ Q). rewrite <- app_assoc. auto.
  - destruct H1 as (b0 & g & ->). exists b0, g. reflexivity.
Qed.

(** The end of a block. *)
Lemma sim_leave (P : env -> Prop) K buf i r o : inv K -> sim P K buf i r o -> sim none K buf i r (mleave (K i) o).
Proof.
  intros I. destruct r as [[buf' i']|e u| |]; cbn [sim]; auto.
  - intros (A & B & Q & _ & ->). repeat split; try lia. exists []. split; [reflexivity|]. cbn [mleave app].
    f_equal. rewrite app_length, (inv_len K I i' i).
    replace (List.length Q + List.length (K i) - List.length (K i))%nat with (List.length Q) by lia.
    rewrite skipn_app, skipn_all, Nat.sub_diag. reflexivity.
  - intros (b & g & ->). exists b, g. reflexivity.
Qed.
(** Also with variables in front that the block was given. *)
Lemma sim_leave2 (P : env -> Prop) K Q0 buf i r o : inv K -> sim P (fun j => Q0 ++ K j) buf i r o -> sim none K buf i r (mleave (K i) o).
Proof.
  intros I. destruct r as [[buf' i']|e u| |]; cbn [sim]; auto.
  - intros (A & B & Q & _ & ->). repeat split; try lia. exists []. split; [reflexivity|]. cbn [mleave app].
    f_equal. rewrite app_assoc, app_length, (inv_len K I i' i).
    replace (List.length (Q ++ Q0) + List.length (K i) - List.length (K i))%nat with (List.length (Q ++ Q0)) by lia.
    rewrite skipn_app, skipn_all, Nat.sub_diag. reflexivity.
  - intros (b & g & ->). exists b, g. reflexivity.
Qed.

(** * Single statements *)
Lemma set_i_run K i j buf : inv K -> 0 <= j < imax -> set_i j (K i) buf = MNext (K j) buf.
Proof. intros I H. unfold set_i. rewrite int_id by exact H. now rewrite (inv_set K I). Qed.

(** [i--; dAtA[i] = b] *)
Lemma put_byte_run K num e b buf i : inv K -> (forall j, ev (K j) e = Some (GInt b)) -> 0 <= i <= zlen buf -> zlen buf < imax ->
  sim none K buf i (put_byte b (buf, i)) (run num (mblock [MDec; MPut "i" e]) (K i) buf).
Proof.
  intros I He Hi Hb. unfold put_byte. destruct (zset buf (i - 1) b) as [buf'|] eqn:E; cbn [orpanic rbind sim]; [|exact Logic.I].
  pose proof (zset_inv _ _ _ _ E) as [A B]. split; [exact B|]. split; [lia|]. exists []. split; [reflexivity|].
  cbn [mblock mexec app]. rewrite (inv_get K I), set_i_run by (auto; lia).
  rewrite (inv_get K I), He. cbn [byte]. now rewrite E.
Qed.

Lemma key_run K num n wt buf i : inv K -> 0 <= i <= zlen buf -> zlen buf < imax ->
  sim none K buf i (encodeKey n wt (buf, i)) (run num (mblock (g_key n wt)) (K i) buf).
Proof.
  intros I Hi Hb. unfold encodeKey, g_key. generalize (rev (key_bytes 5 (Z.lor (u32 (Z.shiftl (u32 n) 3)) (u32 wt)))).
  intros l. revert buf i Hi Hb. induction l as [|b l IH]; intros buf i Hi Hb.
  - cbn. repeat split; try lia. exists []. split; reflexivity.
  - cbn [map run_all flat_map]. eapply (sim_seq none none none).
    + apply put_byte_run; auto.
    + intros Q buf' i' -> L B _. cbn [app]. apply IH; lia.
    + intros Q Q' -> ->. reflexivity.
Qed.

(** [i = EncodeVarint(dAtA, i, e)] *)
Lemma varint_run K num e z buf i : inv K -> 0 <= i <= zlen buf -> zlen buf < imax ->
  match ev (K i) e with Some g => word g = Some z | None => False end ->
  sim none K buf i (encodeVarint z (buf, i)) (run num (mblock [MVarint e]) (K i) buf).
Proof.
  intros I Hi Hb He. unfold encodeVarint. cbn [fst snd].
  destruct (encode_res buf i z) as [[[buf' i'] E]|[E|E]]; rewrite E; cbn [sim]; try exact Logic.I.
  pose proof (encode_inv _ _ _ _ _ E) as [A B]. split; [exact B|]. split; [exact A|]. exists []. split; [reflexivity|].
  rewrite block_one. cbn [mexec app]. rewrite (inv_get K I). destruct (ev (K i) e) as [g|]; [|contradiction].
  rewrite He, E. apply set_i_run; auto; lia.
Qed.

(** [i -= len(e); copy(dAtA[i:], e)] *)
Lemma copy_run K num e e' g bs buf i : inv K -> 0 <= i <= zlen buf -> zlen buf < imax ->
  (forall j, ev (K j) e = Some g) -> (forall j, ev (K j) e' = Some (GInt (zlen bs))) -> contents g = Some bs ->
  sim none K buf i (put_bytes bs (buf, i)) (run num (mblock [MSub e'; MCopy e]) (K i) buf).
Proof.
  intros I Hi Hb He He' Hc. unfold put_bytes. destruct (zcopy buf (i - zlen bs) bs) as [buf'|] eqn:E; cbn [orpanic rbind sim]; [|exact Logic.I].
  pose proof (zcopy_inv _ _ _ _ E) as [A B]. pose proof (zlen_pos bs). split; [exact B|]. split; [lia|]. exists []. split; [reflexivity|].
  cbn [mblock mexec app]. rewrite (inv_get K I), He', set_i_run by (auto; lia).
  rewrite (inv_get K I), He, Hc, E. reflexivity.
Qed.

(** [i -= n; binary.LittleEndian.PutUintXX(dAtA[i:], e)] *)
Lemma fixed_run K num n e z buf i : inv K -> 0 <= i <= zlen buf -> zlen buf < imax -> (n <= 8)%nat ->
  (forall j, ev (K j) e = Some (GU64 z) \/ ev (K j) e = Some (GU32 z)) ->
  sim none K buf i (put_fixed n z (buf, i)) (run num (mblock [MSub (EInt (Z.of_nat n)); MFixed n e]) (K i) buf).
Proof.
  intros I Hi Hb Hn He. unfold put_fixed. destruct (zlen buf <? i - Z.of_nat n + Z.of_nat n) eqn:F; [exact Logic.I|].
  destruct (zcopy buf (i - Z.of_nat n) (le_put n z)) as [buf'|] eqn:E; cbn [orpanic rbind sim]; [|exact Logic.I].
  pose proof (zcopy_inv _ _ _ _ E) as [A B]. split; [exact B|]. split; [lia|]. exists []. split; [reflexivity|].
  cbn [mblock mexec app eval]. rewrite (inv_get K I), set_i_run by (auto; lia).
  rewrite (inv_get K I). destruct (He (i - Z.of_nat n)) as [-> | ->]; rewrite F, E; reflexivity.
Qed.

(** An expression with the same value throughout. *)
Definition steady (K : Z -> env) (e : expr) (g : gval) : Prop := avoid e = true /\ forall j, ev (K j) e = Some g.
Lemma steady_app K Q e g : locals Q -> steady K e g -> steady (fun j => Q ++ K j) e g.
Proof. intros L [A H]. split; [exact A|]. intros j. now rewrite eval_locals. Qed.

Lemma slice_pre (buf : list Z) i : 0 <= i <= zlen buf -> exists pre, zslice buf 0 i = Some pre /\ zlen pre = i.
Proof.
  intros H. destruct (zslice_some buf 0 i ltac:(lia) ltac:(lia)) as [q Hq]. exists q. split; [exact Hq|].
  apply zslice_inv in Hq as (p & s & _ & _ & E). lia.
Qed.
Lemma skipn_zlen {A} (l : list A) i : 0 <= i <= zlen l -> zlen (skipn (Z.to_nat i) l) = zlen l - i.
Proof. intros H. unfold zlen in *. rewrite skipn_length. lia. Qed.

Lemma check_ok num E buf : lookup "err" E = Some (GErr None) -> run num g_check E buf = MNext E buf.
Proof.
  intros H. unfold g_check. cbn [mexec eval]. rewrite H. cbn [equals nil_test truth negb mleave].
  now rewrite Nat.sub_diag.
Qed.
Lemma check_err num E buf e : lookup "err" E = Some (GErr (Some e)) -> run num g_check E buf = MRet buf (GInt 0) (Some e).
Proof.
  intros H. unfold g_check. cbn [mexec eval]. rewrite H. cbn [equals nil_test truth negb mblock mexec eval]. now rewrite H.
Qed.

(** [size, err := e.M(dAtA[:i]); if err != nil { return 0, err }; i -= size] and possibly the size. *)
Lemma call_run K num e g cal (varInt : bool) buf i : inv K -> 0 <= i <= zlen buf -> zlen buf < imax ->
  ev (K i) e = Some g -> (forall pre, zlen pre < imax -> same (cal pre) (callee g pre) pre) ->
  sim locals K buf i
    (do r <- sub_call cal (buf, i); let (st, size) := r in if varInt then encodeVarint size st else Ok st)
    (run num (mblock (MCall "size" e meth "i" :: g_size varInt)) (K i) buf).
Proof.
  intros I Hi Hb He Hc. destruct (slice_pre buf i Hi) as (pre & Ep & Lp).
  unfold sub_call. rewrite Ep. cbn [orpanic rbind].
  pose proof (Hc pre ltac:(lia)) as S. unfold same in S.
  destruct (cal pre) as [[pre' n]|x []| |]; cbn [rbind]; try exact Logic.I.
  - destruct S as (Ec & Lp' & Hn).
    set (Q := [("err", GErr None); ("size", GInt n)]). set (buf' := pre' ++ skipn (Z.to_nat i) buf).
    assert (zlen buf' = zlen buf) as Lb
      by (unfold buf'; rewrite zlen_app, skipn_zlen by lia; lia).
    assert (locals Q) as LQ by (apply locals_cons; [reflexivity|]; apply locals_cons; [reflexivity|apply locals_nil]).
    pose proof (inv_app K Q LQ I) as IQ.
    assert (forall rest, run num (mblock (MCall "size" e meth "i" :: g_check :: MSub (EVar "size") :: rest)) (K i) buf
      = run num (mblock rest) (Q ++ K (i - n)) buf') as St.
    { intros rest. cbn [mblock mexec]. rewrite String.eqb_refl, He, (inv_get K I), Ep, Ec.
      rewrite check_ok by reflexivity. cbn [eval].
      change (lookup "i" (("err", GErr None) :: ("size", GInt n) :: K i)) with (lookup "i" (K i)).
      rewrite (inv_get K I). change (lookup "size" (("err", GErr None) :: ("size", GInt n) :: K i)) with (Some (GInt n)).
      cbn match. pose proof (set_i_run (fun j => Q ++ K j) i (i - n) buf' IQ ltac:(lia)) as R.
      cbn beta in R. unfold Q in R at 1. cbn [app] in R. unfold buf' in R at 1. rewrite R. reflexivity. }
    unfold g_size. destruct varInt.
    + cbn [app]. rewrite St. unfold g_varint.
      pose proof (varint_run (fun j => Q ++ K j) num (EU64 (EVar "size")) n buf' (i - n) IQ ltac:(lia) ltac:(lia)) as V.
      cbn beta in V. destruct (encodeVarint n (buf', i - n)) as [[b2 i2]|? ?| |] eqn:Ev; cbn [sim]; try exact Logic.I.
      * destruct V as (A1 & A2 & Q2 & -> & ->).
        { cbn [eval]. change (lookup "size" (Q ++ K (i - n))) with (Some (GInt n)). cbn [to_u64 word].
          f_equal. apply word_id. lia. }
        split; [lia|]. split; [lia|]. exists Q. split; [exact LQ|reflexivity].
      * exfalso. unfold encodeVarint in Ev. cbn [fst snd] in Ev.
        destruct (encode_res buf' (i - n) n) as [[r E]|[E|E]]; rewrite E in Ev; discriminate.
    + cbn [app]. rewrite St. cbn [mblock mexec sim]. split; [lia|]. split; [lia|]. exists Q. split; [exact LQ|reflexivity].
  - cbn [sim]. exists buf, (GInt 0). cbn [mblock mexec]. rewrite String.eqb_refl, He, (inv_get K I), Ep, S.
    unfold g_size. cbn [app mblock mexec]. now rewrite (check_err num _ buf x) by reflexivity.
Qed.

Lemma encode_ok z buf i : match encodeVarint z (buf, i) with Err _ _ => False | _ => True end.
Proof.
  unfold encodeVarint. cbn [fst snd]. destruct (encode_res buf i z) as [[r E]|[E|E]]; rewrite E; exact Logic.I.
Qed.
Lemma put_bytes_len bs buf i buf' i' : put_bytes bs (buf, i) = Ok (buf', i') -> i' = i - zlen bs /\ 0 <= i'.
Proof.
  unfold put_bytes. destruct (zcopy _ _ _) as [b|] eqn:E; cbn [orpanic rbind]; [|discriminate].
  intros H. injection H as <- <-. apply zcopy_inv in E. lia.
Qed.

(** Some bytes and their number. *)
Lemma bytes_run K num e g bs buf i : inv K -> 0 <= i <= zlen buf -> zlen buf < imax ->
  steady K e g -> length_of g = Some (GInt (zlen bs)) -> contents g = Some bs ->
  sim none K buf i (do st <- put_bytes bs (buf, i); encodeVarint (zlen bs) st)
    (run num (mblock [MSub (ELen e); MCopy e; g_varint (ELen e)]) (K i) buf).
Proof.
  intros I Hi Hb [A He] Hl Hc.
  change [MSub (ELen e); MCopy e; g_varint (ELen e)] with ([MSub (ELen e); MCopy e] ++ [g_varint (ELen e)]).
  assert (forall j, ev (K j) (ELen e) = Some (GInt (zlen bs))) as He'
    by (intros j; cbn [eval]; now rewrite He).
  eapply (sim_seq none none none).
  - now apply (copy_run K num e (ELen e) g bs).
  - intros Q b j -> L B E. apply put_bytes_len in E as [Ej Pj]. pose proof (zlen_pos bs). cbn [app]. unfold g_varint.
    apply varint_run; [exact I|lia|lia|]. cbn [eval]. rewrite He, Hl. cbn [to_u64 word].
    f_equal. apply word_id. lia.
  - intros Q Q' -> ->. reflexivity.
Qed.

Lemma backward_run K num e (varInt : bool) m v buf i : inv K -> 0 <= i <= zlen buf -> zlen buf < imax ->
  steady K e (GV (TMsg m) v) -> wt_ptrmsg sc m v -> (vdepth v < depth)%nat ->
  sim locals K buf i (marshalBackward sc rec varInt m v (buf, i))
    (run num (mblock (g_backward dp strict e varInt m)) (K i) buf).
Proof.
  intros I Hi Hb [A He] T L. unfold g_backward, marshalBackward. destruct (dp m) eqn:Dm.
  - assert (md_foreign (md_of sc m) = false) as F by (apply D; now rewrite Dm). rewrite F.
    apply (call_run K num (ECast m e) (GV (TMsg m) v)); auto.
    + cbn [eval]. now rewrite He, Nat.eqb_refl.
  - assert (md_foreign (md_of sc m) = false) as F by (apply D; now rewrite Dm). rewrite F.
    apply (call_run K num e (GV (TMsg m) v)); auto.
  - rewrite block_one. cbn [mexec]. rewrite He. cbn [has_helpers].
    destruct (md_foreign (md_of sc m)) eqn:F; cbn [negb].
    + set (Q := [("ok", GBool false); ("vtmsg", GNil)]).
      assert (locals Q) as LQ by (apply locals_cons; [reflexivity|]; apply locals_cons; [reflexivity|apply locals_nil]).
      apply (sim_none locals); [apply locals_nil|]. apply (sim_leave2 any K Q); [exact I|].
      change (("ok", GBool false) :: ("vtmsg", GNil) :: K i) with (Q ++ K i).
      pose proof (inv_app K Q LQ I) as IQ.
      pose proof (steady_app K Q e _ LQ (conj A He)) as [_ HQ].
      cbn [app mblock mexec]. rewrite HQ.
      destruct (up_init (sc_up sc) m v).
      * set (bs := up_enc (sc_up sc) m v).
        set (Q2 := [("err", GErr None); ("encoded", GV (TKind KBytes) (VBytes bs))] ++ Q).
        assert (locals Q2) as LQ2 by (apply locals_app; [apply locals_cons; [reflexivity|]; apply locals_cons; [reflexivity|apply locals_nil]|exact LQ]).
        pose proof (inv_app K Q2 LQ2 I) as IQ2.
        rewrite check_ok by reflexivity.
        change (("err", GErr None) :: ("encoded", GV (TKind KBytes) (VBytes bs)) :: Q ++ K i) with (Q2 ++ K i).
        assert (sim none (fun j => Q2 ++ K j) buf i
          (do st <- put_bytes bs (buf, i); if varInt then encodeVarint (zlen bs) st else Ok st)
          (run num (mblock ([MSub (ELen (EVar "encoded")); MCopy (EVar "encoded")]
             ++ (if varInt then [g_varint (ELen (EVar "encoded"))] else []))) (Q2 ++ K i) buf)) as S.
        { eapply (sim_seq none none none (fun j => Q2 ++ K j)).
          - now apply (copy_run (fun j => Q2 ++ K j) num (EVar "encoded") (ELen (EVar "encoded")) (GV (TKind KBytes) (VBytes bs)) bs).
          - intros R b j -> Lb B E. apply put_bytes_len in E as [Ej Pj]. pose proof (zlen_pos bs). cbn [app].
            destruct varInt.
            + unfold g_varint. apply (varint_run (fun j => Q2 ++ K j)); [exact IQ2|lia|lia|].
              cbn [eval]. change (lookup "encoded" (Q2 ++ K j)) with (Some (GV (TKind KBytes) (VBytes bs))).
              cbn [length_of to_u64 word]. f_equal. apply word_id. lia.
            + cbn. repeat split; try lia. exists []. split; reflexivity.
          - intros R R' -> ->. reflexivity. }
        cbn [app mblock mexec] in S.
        destruct (do st <- put_bytes bs (buf, i); if varInt then encodeVarint (zlen bs) st else Ok st)
          as [[b2 i2]|x u| |]; cbn [sim] in *; auto.
        destruct S as (S1 & S2 & R & -> & S3). split; [exact S1|]. split; [exact S2|].
        exists [("err", GErr None); ("encoded", GV (TKind KBytes) (VBytes bs))]. split; [exact Logic.I|].
        exact S3.
      * cbn [sim]. exists buf, (GInt 0). now rewrite (check_err num _ buf EUpstream) by reflexivity.
    + set (Q := [("ok", GBool true); ("vtmsg", GV (TMsg m) v)]).
      assert (locals Q) as LQ by (apply locals_cons; [reflexivity|]; apply locals_cons; [reflexivity|apply locals_nil]).
      apply (sim_none locals); [apply locals_nil|]. apply (sim_leave2 locals K Q); [exact I|].
      change (("ok", GBool true) :: ("vtmsg", GV (TMsg m) v) :: K i) with (Q ++ K i).
      apply (call_run (fun j => Q ++ K j) num (EVar "vtmsg") (GV (TMsg m) v)); auto.
      now apply inv_app.
Qed.

(** * Values *)
Lemma zigzag_range k z : k = KSint32 \/ k = KSint64 -> in_range k z = true -> u64 (zigzag k z) = zigzag k z.
Proof.
  intros [-> | ->] R; cbn [zigzag]; unfold in_range in R.
  - rewrite zigzag32_spec by lia. unfold WireSpec.zz, u64. destruct (z <? 0) eqn:E; apply Z.mod_small; lia.
  - rewrite zigzag64_spec by lia. unfold WireSpec.zz, u64. destruct (z <? 0) eqn:E; apply Z.mod_small; lia.
Qed.

(** The zig-zag expression: its value, of type uint32 or uint64. *)
Definition zval (k : kind) (z : Z) : gval := match k with KSint32 => GU32 (zigzag k z) | _ => GU64 (zigzag k z) end.
Lemma zigzag_eval k z E e : k = KSint32 \/ k = KSint64 -> ev E e = Some (GV (TKind k) (VInt z)) ->
  ev E (g_zigzag k e) = Some (zval k z).
Proof. intros [-> | ->] He; unfold g_zigzag; cbn [eval]; rewrite He; reflexivity. Qed.

Ltac inv_elem T x :=
  lazymatch type of T with
  | wt_elem _ KString _ => destruct (wt_string sc x T) as (?s & ->)
  | wt_elem _ KBytes _ => destruct (wt_byteslice sc x T) as [->|(?s & ->)]
  | wt_elem _ (KMessage _) _ => idtac
  | wt_elem _ (KGroup _) _ => idtac
  | wt_elem _ ?k _ => let R := fresh "R" in destruct (wt_elem_num sc k x eq_refl T) as (?z & -> & R)
  end.

Lemma bool_run K num e z buf i : inv K -> 0 <= i <= zlen buf -> zlen buf < imax ->
  (forall j, ev (K j) e = Some (GV (TKind KBool) (VInt z))) ->
  sim none K buf i (encodeBool z (buf, i)) (run num (mblock (g_bool e)) (K i) buf).
Proof.
  intros I Hi Hb He. unfold encodeBool, put_byte.
  destruct (zset buf (i - 1) _) as [buf'|] eqn:E; cbn [orpanic rbind sim]; [|exact Logic.I].
  pose proof (zset_inv _ _ _ _ E) as [A B]. split; [exact B|]. split; [lia|]. exists []. split; [reflexivity|].
  unfold g_bool. cbn [mblock mexec app]. rewrite (inv_get K I), set_i_run by (auto; lia).
  rewrite He. cbn [truth]. destruct (z =? 0); cbn [negb eval byte]; rewrite (inv_get K I); cbn [byte]; rewrite E;
    cbn [mleave]; now rewrite Nat.sub_diag.
Qed.

Lemma value_run K num k e v buf i : inv K -> 0 <= i <= zlen buf -> zlen buf < imax ->
  steady K e (GV (kind_type k) v) -> wt_elem sc k v -> (vdepth v < depth)%nat ->
  sim locals K buf i (encodeValue sc rec k v (buf, i)) (run num (mblock (g_value dp strict k e)) (K i) buf).
Proof.
  intros I Hi Hb St T L. unfold encodeValue, g_value. pose proof St as [A He].
  destruct k; cbn [classify kind_type] in *; inv_elem T v; cbn [vint vbytes];
    lazymatch type of T with
    | wt_elem _ (KMessage _) _ => idtac
    | wt_elem _ (KGroup _) _ => idtac
    | _ => apply (sim_none locals); [apply locals_nil|]
    end.
  all: try (unfold g_fixed64, g_bits, encodeFixed64; change 8 with (Z.of_nat 8);
    apply fixed_run; auto; intros j; left; cbn [eval]; rewrite He; reflexivity).
  all: try (unfold g_fixed32, g_bits, encodeFixed32; change 4 with (Z.of_nat 4);
    apply fixed_run; auto; intros j; right; cbn [eval]; rewrite He; reflexivity).
  all: try (unfold g_varint; apply varint_run; auto; cbn [eval]; rewrite He; cbn [to_u64 word]; reflexivity).
  all: try (apply bool_run; auto; fail).
  all: try (eapply bytes_run; eauto; reflexivity).
  all: try (unfold g_varint; apply varint_run; auto; cbn [eval];
    first [rewrite (zigzag_eval KSint32 z) by auto|rewrite (zigzag_eval KSint64 z) by auto];
    cbn [zval to_u64 word]; f_equal; apply zigzag_range; auto; fail).
  - apply backward_run; auto. exact (wt_sub_ptr sc (KGroup m) m v eq_refl T).
  - apply backward_run; auto. exact (wt_sub_ptr sc (KMessage m) m v eq_refl T).
Qed.

Lemma value_key_run K num n wt k e v buf i : inv K -> 0 <= i <= zlen buf -> zlen buf < imax ->
  steady K e (GV (kind_type k) v) -> wt_elem sc k v -> (vdepth v < depth)%nat ->
  sim locals K buf i (do st <- encodeValue sc rec k v (buf, i); encodeKey n wt st)
    (run num (mblock (g_value dp strict k e ++ g_key n wt)) (K i) buf).
Proof.
  intros I Hi Hb St T L. eapply (sim_seq locals none locals).
  - now apply value_run.
  - intros Q b j LQ Lb B _. apply (key_run (fun j => Q ++ K j)); [now apply inv_app|lia|lia].
  - intros Q Q' HQ ->. exact HQ.
Qed.

Lemma tagged_run K num n k e v buf i : inv K -> 0 <= i <= zlen buf -> zlen buf < imax ->
  steady K e (GV (kind_type k) v) -> wt_elem sc k v -> (vdepth v < depth)%nat ->
  sim locals K buf i (encodeTagged sc rec n k v (buf, i))
    (run num (mblock (g_tagged dp strict n k e)) (K i) buf).
Proof.
  intros I Hi Hb St T L. unfold encodeTagged, g_tagged.
  destruct (classify k) as [| | | | | | |m|m] eqn:Ck; try (now apply value_key_run).
  assert (k = KGroup m) as -> by (destruct k; cbn in Ck; congruence).
  eapply (sim_seq none locals locals).
  - now apply key_run.
  - intros Q b j -> Lb B _. cbn [app].
    eapply (sim_seq locals none locals).
    + unfold g_value. cbn [classify]. apply backward_run; auto; try lia.
      exact (wt_sub_ptr sc (KGroup m) m v eq_refl T).
    + intros Q b2 j2 LQ Lb2 B2 _. apply (key_run (fun j => Q ++ K j)); [now apply inv_app|lia|lia].
    + intros Q Q' HQ ->. exact HQ.
  - intros Q Q' -> HQ. rewrite app_nil_r. exact HQ.
Qed.

(** * Loops *)
Lemma sim_bind K buf i r f o (k : env -> list Z -> mout) : sim none K buf i r o ->
  (forall buf' i', zlen buf' = zlen buf -> 0 <= i' <= i -> r = Ok (buf', i') ->
     sim none K buf' i' (f (buf', i')) (k (K i') buf')) ->
  sim none K buf i (rbind r f) (match o with MNext E' b => k E' b | MRet b g e => MRet b g e | MStuck => MStuck end).
Proof.
  intros H1 H2. destruct r as [[buf' i']|e []| |]; cbn [rbind]; try exact I.
  - destruct H1 as (L & B & Q & -> & ->). specialize (H2 buf' i' L B eq_refl). cbn [app].
    destruct (f (buf', i')) as [[buf2 i2]| | |]; cbn [sim] in *; auto.
    destruct H2 as (L2 & B2 & H2). repeat split; try lia. exact H2.
  - destruct H1 as (b0 & g & ->). exists b0, g. reflexivity.
Qed.

Lemma down_run K body (F : val -> mst -> mres) l : inv K ->
  forall buf i, 0 <= i <= zlen buf -> zlen buf < imax ->
  (forall n x buf i, nth_error l n = Some x -> 0 <= i <= zlen buf -> zlen buf < imax ->
     sim any (fun j => ("iNdEx", GInt (Z.of_nat n)) :: K j) buf i (F x (buf, i))
       (body (("iNdEx", GInt (Z.of_nat n)) :: K i) buf)) ->
  sim none K buf i (run_all (map F (rev l)) (buf, i)) (down body (List.length l) (K i) buf).
Proof.
  intros I. induction l as [|x l IH] using rev_ind; intros buf i Hi Hb H.
  - cbn. repeat split; try lia. exists []. split; reflexivity.
  - rewrite rev_app_distr, app_length, Nat.add_comm. cbn [rev app map run_all List.length Nat.add down].
    refine (sim_bind K buf i (F x (buf, i)) _ _ (down body (List.length l)) _ _).
    + apply (sim_leave2 any K [("iNdEx", GInt (Z.of_nat (List.length l)))]); [exact I|].
      apply H; auto. rewrite nth_error_app2, Nat.sub_diag by lia. reflexivity.
    + intros buf' i' L B _. apply IH; [lia|lia|]. intros n y b j Hn. apply H.
      rewrite nth_error_app1; [exact Hn|]. apply nth_error_Some. congruence.
Qed.

Lemma each_run {A} K body x (G : A -> gval) (F : A -> mst -> mres) l : inv K ->
  forall buf i, 0 <= i <= zlen buf -> zlen buf < imax ->
  (forall a buf i, In a l -> 0 <= i <= zlen buf -> zlen buf < imax ->
     sim any (fun j => (x, G a) :: K j) buf i (F a (buf, i)) (body ((x, G a) :: K i) buf)) ->
  sim none K buf i (run_all (map F l) (buf, i)) (each body x (map G l) (K i) buf).
Proof.
  intros I. induction l as [|a l IH]; intros buf i Hi Hb H.
  - cbn. repeat split; try lia. exists []. split; reflexivity.
  - cbn [map run_all each].
    refine (sim_bind K buf i (F a (buf, i)) _ _ (each body x (map G l)) _ _).
    + apply (sim_leave2 any K [(x, G a)]); [exact I|]. apply H; auto. now left.
    + intros buf' i' L B _. apply IH; [lia|lia|]. intros b c j Hn. apply H. now right.
Qed.

(** A variable declared at the start. *)
Lemma sim_def (P : env -> Prop) K num x e g rest buf i r : ev (K i) e = Some g ->
  sim P (fun j => (x, g) :: K j) buf i r (run num (mblock rest) ((x, g) :: K i) buf) ->
  sim any K buf i r (run num (mblock (MDo (SDef x e) :: rest)) (K i) buf).
Proof.
  intros He H. cbn [mblock mexec exec]. rewrite He.
  destruct r as [[b j]|? ?| |]; cbn [sim] in *; auto.
  destruct H as (A & B & Q & _ & E). split; [exact A|]. split; [exact B|]. exists (Q ++ [(x, g)]).
  split; [exact Logic.I|]. rewrite <- app_assoc. exact E.
Qed.

(** One element of a list that is not packed. *)
Lemma item_run K num c n k e v buf i : inv K -> 0 <= i <= zlen buf -> zlen buf < imax ->
  steady K e (GV (kind_type k) v) -> wt_elem sc k v -> (vdepth v < depth)%nat ->
  sim any K buf i (encodeTagged sc rec n k v (buf, i))
    (run num (mblock (fst (g_item dp strict c n k e))) (K i) buf).
Proof.
  intros I Hi Hb St T L. pose proof St as [A He].
  assert (sim any K buf i (encodeTagged sc rec n k v (buf, i))
    (run num (mblock (g_tagged dp strict n k e)) (K i) buf)) as Plain
    by (eapply (sim_weak locals any); [intros Q _; exact Logic.I|now apply tagged_run]).
  unfold g_item. destruct k; try exact Plain; clear Plain; inv_elem T v; cbn [fst]; unfold encodeTagged, encodeValue;
    cbn [classify kind_type ProtoWireType vint] in *.
  - eapply (sim_def none); [cbn [eval]; rewrite He; reflexivity|].
    assert (inv (fun j => (fvar (c + 1), GU64 z) :: K j)) as I' by (apply inv_cons; [reflexivity|exact I]).
    eapply (sim_seq none none none (fun j => (fvar (c + 1), GU64 z) :: K j)).
    + unfold g_fixed64, encodeFixed64. change 8 with (Z.of_nat 8).
      apply (fixed_run (fun j => (fvar (c + 1), GU64 z) :: K j)); auto. intros j. left.
      cbn [eval lookup]. rewrite String.eqb_refl. reflexivity.
    + intros Q b j -> Lb B _. apply (key_run (fun j => (fvar (c + 1), GU64 z) :: K j)); auto; lia.
    + intros Q Q' -> ->. reflexivity.
  - eapply (sim_def none); [cbn [eval]; rewrite He; reflexivity|].
    assert (inv (fun j => (fvar (c + 1), GU32 z) :: K j)) as I' by (apply inv_cons; [reflexivity|exact I]).
    eapply (sim_seq none none none (fun j => (fvar (c + 1), GU32 z) :: K j)).
    + unfold g_fixed32, encodeFixed32. change 4 with (Z.of_nat 4).
      apply (fixed_run (fun j => (fvar (c + 1), GU32 z) :: K j)); auto. intros j. right.
      cbn [eval lookup]. rewrite String.eqb_refl. reflexivity.
    + intros Q b j -> Lb B _. apply (key_run (fun j => (fvar (c + 1), GU32 z) :: K j)); auto; lia.
    + intros Q Q' -> ->. reflexivity.
  - eapply (sim_def none); [apply zigzag_eval; auto|].
    assert (inv (fun j => (xvar (c + 1), zval KSint32 z) :: K j)) as I' by (apply inv_cons; [reflexivity|exact I]).
    eapply (sim_seq none none none (fun j => (xvar (c + 1), zval KSint32 z) :: K j) num [g_varint (EVar (xvar (c + 1)))]).
    + unfold g_varint. apply (varint_run (fun j => (xvar (c + 1), zval KSint32 z) :: K j)); auto.
      cbn [eval lookup]. rewrite String.eqb_refl. cbn [zval to_u64 word]. f_equal. apply zigzag_range; auto.
    + intros Q b j -> Lb B _. apply (key_run (fun j => (xvar (c + 1), zval KSint32 z) :: K j)); auto; lia.
    + intros Q Q' -> ->. reflexivity.
  - eapply (sim_def none); [apply zigzag_eval; auto|].
    assert (inv (fun j => (xvar (c + 1), zval KSint64 z) :: K j)) as I' by (apply inv_cons; [reflexivity|exact I]).
    eapply (sim_seq none none none (fun j => (xvar (c + 1), zval KSint64 z) :: K j) num [g_varint (EVar (xvar (c + 1)))]).
    + unfold g_varint. apply (varint_run (fun j => (xvar (c + 1), zval KSint64 z) :: K j)); auto.
      cbn [eval lookup]. rewrite String.eqb_refl. cbn [zval to_u64 word]. f_equal. apply zigzag_range; auto.
    + intros Q b j -> Lb B _. apply (key_run (fun j => (xvar (c + 1), zval KSint64 z) :: K j)); auto; lia.
    + intros Q Q' -> ->. reflexivity.
Qed.

(** * The loops of packed varints *)
Record numeric (N : Z -> gval) : Prop := {
  nu_get : forall z, unsigned (N z) = Some z;
  nu_shr : forall z, shift_right (N z) 7 = Some (N (Z.shiftr z 7));
  nu_64 : forall z, to_u64 (N z) = Some (GU64 (u64 z)) }.
Record pair_env (L : gval -> Z -> env) (x j : string) : Prop := {
  pe_x : forall g o, lookup x (L g o) = Some g;
  pe_j : forall g o, lookup j (L g o) = Some (GInt o);
  pe_setx : forall g g' o, assign x g' (L g o) = Some (L g' o);
  pe_setj : forall g o o', assign j (GInt o') (L g o) = Some (L g o');
  pe_len : forall g g' o o', List.length (L g o) = List.length (L g' o') }.

Lemma put7_run L N x j num v off buf buf' : pair_env L x j -> numeric N -> 0 <= v < 2 ^ 64 ->
  zset buf off (Z.lor (Z.land v 127) 128) = Some buf' ->
  run num (g_put7 j x) (L (N v) off) buf = MNext (L (N v) off) buf'.
Proof.
  intros P Nu Hv E. unfold g_put7. cbn [mexec eval]. rewrite (pe_x _ _ _ P), (pe_j _ _ _ P), (nu_64 _ Nu).
  cbn [bit_op to_u8 unsigned byte]. unfold u64. rewrite (Z.mod_small v) by lia.
  replace (Z.lor (Z.land v 127) 128 mod 256) with (Z.lor (Z.land v 127) 128); [now rewrite E|].
  symmetry. rewrite land127. pose proof (Z.mod_pos_bound v 128 ltac:(lia)). rewrite lor128 by lia. apply Z.mod_small. lia.
Qed.
Lemma inc_run L x j num g off buf : pair_env L x j -> 0 <= off + 1 < imax ->
  run num (MInc j) (L g off) buf = MNext (L g (off + 1)) buf.
Proof. intros P H. cbn [mexec]. rewrite (pe_j _ _ _ P), int_id by exact H. now rewrite (pe_setj _ _ _ P). Qed.
Lemma shr_run L N x j num v off buf : pair_env L x j -> numeric N ->
  run num (MShr x) (L (N v) off) buf = MNext (L (N (Z.shiftr v 7)) off) buf.
Proof.
  intros P Nu. cbn [mexec]. rewrite (pe_x _ _ _ P). unfold shr7. rewrite (nu_shr _ Nu). now rewrite (pe_setx _ _ _ P).
Qed.

Lemma while_run L N x j num body fuel : pair_env L x j -> numeric N ->
  (forall v off buf buf', 0 <= v < 2 ^ 64 -> 0 <= off + 1 < imax ->
     zset buf off (Z.lor (Z.land v 127) 128) = Some buf' ->
     run num body (L (N v) off) buf = MNext (L (N (Z.shiftr v 7)) (off + 1)) buf') ->
  forall n v off buf buf' off', 0 <= v < 2 ^ 64 -> v < 2 ^ (7 * (Z.of_nat n + 1)) -> zlen buf < imax ->
  varint_loop fuel buf off v = Ok (buf', off') ->
  exists v' b, 0 <= v' < 128 /\ while n (run num body) x (L (N v) off) buf = MNext (L (N v') (off' - 1)) b
    /\ zset b (off' - 1) v' = Some buf'.
Proof.
  intros P Nu Hbody. induction fuel as [|fuel IH]; intros n v off buf buf' off' Hv Hn Hb H; [discriminate|].
  cbn [varint_loop] in H.
  assert (while n (run num body) x (L (N v) off) buf =
    (if 128 <=? v then match n with O => MStuck | S n' =>
       match mleave (L (N v) off) (run num body (L (N v) off) buf) with
       | MNext E' b => while n' (run num body) x E' b | o => o end end
     else MNext (L (N v) off) buf)) as Ew.
  { destruct n; cbn [while]; now rewrite (pe_x _ _ _ P), (nu_get _ Nu). }
  rewrite Ew. destruct (128 <=? v) eqn:E.
  - destruct (zset buf off _) as [b|] eqn:Ez; cbn [orpanic rbind] in H; [|discriminate].
    pose proof (zset_inv _ _ _ _ Ez) as [Z1 Z2].
    destruct n as [|n]; [change (2 ^ (7 * (Z.of_nat 0 + 1))) with 128 in Hn; lia|].
    rewrite (Hbody v off buf b Hv ltac:(lia) Ez). cbn [mleave].
    rewrite (pe_len _ _ _ P (N (Z.shiftr v 7)) (N v) (off + 1) off), Nat.sub_diag. cbn [skipn].
    apply (IH n) in H; [exact H| | |lia].
    + rewrite shiftr7. split; [apply Z.div_pos; lia|]. apply Z.div_lt_upper_bound; lia.
    + rewrite shiftr7. apply Z.div_lt_upper_bound; [lia|].
      replace (128 * 2 ^ (7 * (Z.of_nat n + 1))) with (2 ^ (7 * (Z.of_nat (S n) + 1))); [exact Hn|].
      change 128 with (2 ^ 7). rewrite <- Z.pow_add_r by lia. f_equal. lia.
  - destruct (zset buf off v) as [b|] eqn:Ez; cbn [orpanic rbind] in H; [|discriminate].
    injection H as <- <-. exists v, buf. replace (off + 1 - 1) with off by lia. split; [lia|]. split; [reflexivity|exact Ez].
Qed.

Lemma last_run L N x j num v off buf buf' : pair_env L x j -> numeric N -> 0 <= v < 128 -> 0 <= off + 1 < imax ->
  zset buf off v = Some buf' ->
  run num (mblock (g_last j x)) (L (N v) off) buf = MNext (L (N v) (off + 1)) buf'.
Proof.
  intros P Nu Hv Ho E. unfold g_last. cbn [mblock]. cbn [mexec eval].
  rewrite (pe_x _ _ _ P), (pe_j _ _ _ P). unfold to_u8. rewrite (nu_get _ Nu). cbn [byte].
  rewrite Z.mod_small by lia. rewrite E.
  pose proof (inc_run L x j num (N v) off buf' P Ho) as R. cbn [mexec] in R. now rewrite R.
Qed.

(** One number. *)
Lemma number_run L N x j num body v off buf buf' off' fuel : pair_env L x j -> numeric N ->
  (forall v off buf buf', 0 <= v < 2 ^ 64 -> 0 <= off + 1 < imax ->
     zset buf off (Z.lor (Z.land v 127) 128) = Some buf' ->
     run num body (L (N v) off) buf = MNext (L (N (Z.shiftr v 7)) (off + 1)) buf') ->
  0 <= v < 2 ^ 64 -> zlen buf < imax -> varint_loop fuel buf off v = Ok (buf', off') ->
  exists v', run num (mblock ([MWhile x body] ++ g_last j x)) (L (N v) off) buf = MNext (L (N v') off') buf'.
Proof.
  intros P Nu Hbody Hv Hb H. pose proof (loop_inv _ _ _ _ _ _ H) as (I1 & I2 & I3).
  destruct (while_run L N x j num body fuel P Nu Hbody rounds v off buf buf' off' Hv) as (v' & b & Hv' & E & Ez); auto.
  - apply Z.lt_le_trans with (2 ^ 64); [lia|]. apply Z.pow_le_mono_r; lia.
  - exists v'. rewrite block_app, block_one. change (run num (MWhile x body) (L (N v) off) buf) with
      (while rounds (run num body) x (L (N v) off) buf). rewrite E.
    pose proof (zset_inv _ _ _ _ Ez) as [Z1 Z2].
    rewrite (last_run L N x j num v' (off' - 1) b buf') by (auto; lia).
    replace (off' - 1 + 1) with off' by lia. reflexivity.
Qed.

Lemma fwd_err k l : forall buf off, match packed_fwd k l buf off with Err _ _ => False | _ => True end.
Proof.
  induction l as [|e l IH]; intros buf off; cbn [packed_fwd]; [exact I|].
  assert (forall fuel buf off v, match varint_loop fuel buf off v with Err _ _ => False | _ => True end) as H.
  { clear. induction fuel as [|fuel IH]; intros; cbn [varint_loop]; [exact I|].
    destruct (128 <=? v); destruct (zset _ _ _); cbn [orpanic rbind]; try exact I. apply IH. }
  pose proof (H (varint_fuel (varint_arg k (vint e))) buf off (varint_arg k (vint e))) as He.
  destruct (varint_loop _ _ _ _) as [[b o]|? ?| |]; cbn [rbind]; try exact I; [apply IH|contradiction].
Qed.
Lemma fwd_inv k l : forall buf off buf' off', packed_fwd k l buf off = Ok (buf', off') -> off <= off' /\ zlen buf' = zlen buf
  /\ (l <> [] -> 0 <= off /\ off' <= zlen buf).
Proof.
  induction l as [|e l IH]; intros buf off buf' off' H; cbn [packed_fwd] in H.
  - injection H as <- <-. split; [lia|]. split; [reflexivity|]. intros N. now elim N.
  - destruct (varint_loop _ _ _ _) as [[b o]| | |] eqn:E; cbn [rbind fst snd] in H; try discriminate.
    apply loop_inv in E. destruct l as [|e' l].
    + cbn [packed_fwd] in H. injection H as <- <-. repeat split; lia.
    + apply IH in H as (A & B & C2). destruct C2 as [C3 C4]; [discriminate|]. repeat split; lia.
Qed.

Lemma each_fwd (H : Z -> env) num body x k (G : val -> gval) l : (forall o o', List.length (H o) = List.length (H o')) ->
  (forall e buf off buf' off', In e l -> zlen buf < imax ->
     varint_loop (varint_fuel (varint_arg k (vint e))) buf off (varint_arg k (vint e)) = Ok (buf', off') ->
     exists Q, run num body ((x, G e) :: H off) buf = MNext (Q ++ H off') buf') ->
  forall buf off buf' off', zlen buf < imax -> packed_fwd k l buf off = Ok (buf', off') ->
  each (run num body) x (map G l) (H off) buf = MNext (H off') buf'.
Proof.
  intros Len. induction l as [|e l IH]; intros Hb buf off buf' off' B E; cbn [packed_fwd] in E.
  - injection E as <- <-. reflexivity.
  - destruct (varint_loop _ _ _ _) as [[b o]| | |] eqn:Ev; cbn [rbind fst snd] in E; try discriminate.
    destruct (Hb e buf off b o (or_introl eq_refl) B Ev) as [Q R].
    cbn [map each]. rewrite R. cbn [mleave]. rewrite app_length, (Len o off).
    replace (List.length Q + List.length (H off) - List.length (H off))%nat with (List.length Q) by lia.
    rewrite skipn_app, skipn_all, Nat.sub_diag. cbn [skipn app].
    apply IH; auto.
    + intros e2 b2 o2 b2' o2' Hin. apply Hb. now right.
    + apply loop_inv in Ev. lia.
Qed.

(** [t += e] over a list. *)
Lemma total_run num t e (G : val -> gval) (f : val -> Z) l E : String.eqb t "num" = false -> String.eqb t "_" = false ->
  (forall x a, In x l -> ev (("num", G x) :: ("_", GNil) :: (t, GInt a) :: E) e = Some (GInt (f x))) ->
  (forall x, 0 <= f x) ->
  forall a, 0 <= a -> a + sum_over f l < imax ->
  loop (exec sc call num (SAddTo t e)) "_" "num" (map (fun x => (GNil, G x)) l) ((t, GInt a) :: E)
  = Next ((t, GInt (a + sum_over f l)) :: E).
Proof.
  intros N1 N2. induction l as [|x l IH]; intros He Pf a Ha B.
  - cbn [map loop]. rewrite sum_nil, Z.add_0_r. reflexivity.
  - rewrite sum_cons in *. assert (0 <= sum_over f l) by (apply sum_pos; intros; apply Pf). pose proof (Pf x).
    cbn [map loop exec]. rewrite (He x a (or_introl eq_refl)).
    cbn [lookup assign]. rewrite N1, N2, String.eqb_refl. cbn [int_op].
    rewrite int_id by lia.
    cbn [leave List.length].
    match goal with |- context [skipn ?z ?y] => replace z with 2%nat by lia end. cbn [skipn].
    rewrite Z.add_assoc. apply IH; try lia; auto. intros y b Hy. apply He. now right.
Qed.

Lemma run_all_count (F : val -> mst -> mres) c l : 0 <= c ->
  (forall x b i b' i', F x (b, i) = Ok (b', i') -> i' = i - c /\ 0 <= i') ->
  forall b i b' i', 0 <= i -> run_all (map F l) (b, i) = Ok (b', i') -> i' = i - c * zlen l /\ 0 <= i'.
Proof.
  intros Hc HF. induction l as [|x l IH]; intros b i b' i' Hi H; cbn [map run_all] in H.
  - injection H as <- <-. change (zlen (@nil val)) with 0. lia.
  - destruct (F x (b, i)) as [[b1 i1]| | |] eqn:E; cbn [rbind] in H; try discriminate.
    apply HF in E as [-> E]. apply IH in H as [-> H]; [|exact E]. rewrite zlen_cons in *. lia.
Qed.
Lemma zlen_rev {A} (l : list A) : zlen (rev l) = zlen l.
Proof. unfold zlen. now rewrite rev_length. Qed.
Lemma fixed_count n z b i b' i' : put_fixed n z (b, i) = Ok (b', i') -> i' = i - Z.of_nat n /\ 0 <= i'.
Proof.
  unfold put_fixed. destruct (_ <? _); [discriminate|].
  destruct (zcopy _ _ _) as [x|] eqn:E; cbn [orpanic rbind]; [|discriminate]. intros H. injection H as <- <-.
  apply zcopy_inv in E. lia.
Qed.
Lemma bool_count z b i b' i' : encodeBool z (b, i) = Ok (b', i') -> i' = i - 1 /\ 0 <= i'.
Proof.
  unfold encodeBool, put_byte.
  destruct (zset _ _ _) as [x|] eqn:E; cbn [orpanic rbind]; [|discriminate]. intros H. injection H as <- <-.
  apply zset_inv in E. lia.
Qed.

(** A packed list of numbers of a fixed size. *)
Lemma packed_fixed_run K num n fe g ge k l c (F : val -> mst -> mres) body e buf i : inv K ->
  0 <= i <= zlen buf -> zlen buf < imax -> 0 < c ->
  (forall j, lookup "m" (K j) = Some g) -> (forall E, lookup "m" E = Some g -> ev E fe = Some ge) ->
  ge = GV (TSlice k) (VList l) ->
  (forall b i b' i' x, F x (b, i) = Ok (b', i') -> i' = i - c /\ 0 <= i') ->
  (forall j, 0 <= c * zlen l < imax -> ev (K j) e = Some (GInt (zlen l * c))) ->
  (forall m x buf i, nth_error l m = Some x -> 0 <= i <= zlen buf -> zlen buf < imax ->
     sim any (fun j => ("iNdEx", GInt (Z.of_nat m)) :: K j) buf i (F x (buf, i))
       (run num (mblock body) (("iNdEx", GInt (Z.of_nat m)) :: K i) buf)) ->
  sim any K buf i
    (do st <- run_all (map F (rev l)) (buf, i); do st <- encodeVarint (zlen l * c) st; encodeKey n 2 st)
    (run num (mblock ([MDown fe (mblock body); g_varint e] ++ g_key n 2)) (K i) buf).
Proof.
  intros I Hi Hb Hc Hm Hfe -> HF He Hbody.
  change ([MDown fe (mblock body); g_varint e] ++ g_key n 2) with ([MDown fe (mblock body)] ++ ([g_varint e] ++ g_key n 2)).
  apply (sim_none any); [exact Logic.I|].
  eapply (sim_seq none none none).
  - rewrite block_one. cbn [mexec eval]. rewrite (Hfe (K i) (Hm i)). cbn [length_of].
    unfold zlen at 1. rewrite Nat2Z.id. now apply down_run.
  - intros Q b j -> Lb Bj E. cbn [app].
    apply (run_all_count F c (rev l)) in E as [Ej Pj]; [|lia|eauto|lia]. rewrite zlen_rev in Ej.
    pose proof (zlen_pos l).
    assert (0 <= c * zlen l < imax) as Hcl by lia.
    eapply (sim_seq none none none K num [g_varint e] (g_key n 2)).
    + unfold g_varint. apply varint_run; [exact I|lia|lia|]. cbn [eval]. rewrite (He j Hcl). cbn [to_u64 word].
      f_equal. rewrite Z.mul_comm. apply word_id. lia.
    + intros Q b2 j2 -> Lb2 B2 _. apply key_run; auto; lia.
    + intros Q Q' -> ->. reflexivity.
  - intros Q Q' -> ->. reflexivity.
Qed.

(** A packed list of varints. *)
Lemma packed_var_run K num n fe g k l te t j x body buf i : inv K ->
  0 <= i <= zlen buf -> zlen buf < imax -> l <> [] ->
  (forall j, lookup "m" (K j) = Some g) ->
  (forall E, lookup "m" E = Some g -> ev E fe = Some (GV (TSlice k) (VList l))) ->
  classify k = CVar \/ classify k = CZig ->
  (forall y, In y ["i"; "m"; "num"; "_"] -> String.eqb y t = false /\ String.eqb y j = false /\ String.eqb t y = false) ->
  String.eqb t j = false ->
  (forall y a E, In y l -> ev (("num", GV (kind_type k) y) :: ("_", GNil) :: (t, GInt a) :: E) te
     = Some (GInt (match classify k with CZig => SizeOfZigzag (u64 (vint y)) | _ => SizeOfVarint (u64 (vint y)) end))) ->
  (forall E e buf off buf' off', In e l -> zlen buf < imax ->
     varint_loop (varint_fuel (varint_arg k (vint e))) buf off (varint_arg k (vint e)) = Ok (buf', off') ->
     exists Q, run num body ((x, GV (kind_type k) e) :: (j, GInt off) :: E) buf = MNext (Q ++ (j, GInt off') :: E) buf') ->
  sim any K buf i (encodePacked n k l (buf, i))
    (run num (mblock ([MDo (SVar t); MDo (SRange "_" "num" fe (SAddTo t te)); MSub (EVar t); MDo (SDef j (EVar "i"));
       MRange x fe body; g_varint (EVar t)] ++ g_key n 2)) (K i) buf).
Proof.
  intros I Hi Hb Hl Hm Hfe Hk Hn Htj Ht Hbody.
  set (total := packed_total k l).
  assert (encodePacked n k l (buf, i) =
    (do r <- packed_fwd k l buf (i - total); do st <- encodeVarint total (fst r, i - total); encodeKey n 2 st)) as ->
    by (unfold encodePacked, total; destruct Hk as [-> | ->]; reflexivity).
  pose proof (fwd_err k l buf (i - total)) as NE.
  destruct (packed_fwd k l buf (i - total)) as [[b o]|? ?| |] eqn:Ef; cbn [rbind fst]; try exact Logic.I; [|contradiction].
  pose proof (fwd_inv _ _ _ _ _ _ Ef) as (F1 & F2 & F3). destruct (F3 Hl) as [F4 F5]. clear F3.
  destruct (Hn "i" ltac:(cbn; tauto)) as (Ni1 & Ni2 & _). destruct (Hn "m" ltac:(cbn; tauto)) as (Nm1 & Nm2 & _).
  destruct (Hn "num" ltac:(cbn; tauto)) as (_ & _ & Nn). destruct (Hn "_" ltac:(cbn; tauto)) as (_ & _ & Nu).
  assert (0 <= total) as Pt by (apply sum_pos; intros y _; destruct (classify k); (apply sov_pos || apply soz_pos)).
  set (Q0 := [(j, GInt o); (t, GInt total)]).
  set (K' := fun z => Q0 ++ K z).
  assert (inv K') as I' by (unfold K', Q0; apply (inv_cons (fun z => (t, GInt total) :: K z)); [exact Ni2|]; now apply inv_cons).
  cbn [app mblock].
  assert (forall rest, run num (mblock (MDo (SVar t) :: MDo (SRange "_" "num" fe (SAddTo t te)) :: MSub (EVar t)
       :: MDo (SDef j (EVar "i")) :: MRange x fe body :: rest)) (K i) buf
     = run num (mblock rest) (K' (i - total)) b) as St.
  { intros rest. cbn [mblock mexec exec].
    rewrite Hfe by (cbn [lookup]; rewrite Nm1; apply Hm). cbn [items].
    rewrite (total_run num t te (fun y => GV (kind_type k) y) (fun y => match classify k with CZig => SizeOfZigzag (u64 (vint y)) | _ => SizeOfVarint (u64 (vint y)) end) l (K i)); auto.
    2: { intros y. destruct (classify k); (apply sov_pos || apply soz_pos). }
    2: lia.
    2: { change (sum_over _ l) with total. lia. }
    change (sum_over _ l) with total. rewrite Z.add_0_l.
    cbn [lookup eval]. rewrite Ni1, (inv_get K I), String.eqb_refl. cbn match.
    pose proof (set_i_run (fun z => (t, GInt total) :: K z) i (i - total) buf (inv_cons K t _ Ni1 I) ltac:(lia)) as S.
    cbn beta in S. rewrite S. cbn [lookup]. rewrite Ni1, (inv_get K I).
    rewrite Hfe by (cbn [lookup]; rewrite Nm2, Nm1; apply Hm). cbn [items].
    rewrite map_map. cbn [snd].
    pose proof (each_fwd (fun z => (j, GInt z) :: (t, GInt total) :: K (i - total)) num body x k
      (fun y => GV (kind_type k) y) l (fun _ _ => eq_refl)
      (fun e bf of bf' of' Hin => Hbody ((t, GInt total) :: K (i - total)) e bf of bf' of' Hin) buf (i - total) b o Hb Ef) as R.
    cbn beta in R. rewrite R. reflexivity. }
  pose proof (St (g_varint (EVar t) :: g_key n 2)) as St2. cbn [mblock] in St2. rewrite St2. clear St St2.
  assert (sim none K' b (i - total) (do st <- encodeVarint total (b, i - total); encodeKey n 2 st)
    (run num (mblock ([g_varint (EVar t)] ++ g_key n 2)) (K' (i - total)) b)) as S.
  { eapply (sim_seq none none none).
    - unfold g_varint. apply varint_run; [exact I'|lia|lia|]. cbn [eval].
      unfold K', Q0. cbn [app lookup]. rewrite Htj, String.eqb_refl. cbn [to_u64 word]. f_equal. apply word_id. lia.
    - intros Q b2 j2 -> Lb2 B2 _. apply (key_run K'); auto; lia.
    - intros Q Q' -> ->. reflexivity. }
  cbn [app mblock] in S.
  destruct (do st <- encodeVarint total (b, i - total); encodeKey n 2 st) as [[b2 j2]|? ?| |]; cbn [sim] in *; auto.
  destruct S as (A & B & Q & -> & E). split; [lia|]. split; [lia|]. exists Q0. split; [exact Logic.I|exact E].
Qed.

Lemma sov_eval E y z : lookup "num" E = Some y -> to_u64 y = Some (GU64 (u64 z)) ->
  ev E (sov (EVar "num")) = Some (GInt (SizeOfVarint (u64 z))) /\ ev E (soz (EVar "num")) = Some (GInt (SizeOfZigzag (u64 z))).
Proof. intros H1 H2. unfold sov, soz. cbn [eval]. rewrite H1, H2. split; reflexivity. Qed.

Section List.
Variables (K : Z -> env) (num : Z) (g : gval) (mem : member) (k : kind) (l : list val).
Hypothesis I : inv K.
Hypothesis Hm : forall j, lookup "m" (K j) = Some g.
Hypothesis Sel : select sc g mem = Some (GV (TSlice k) (VList l)).
Hypothesis T : forall x, In x l -> wt_elem sc k x.
Notation fe := (ESel (EVar "m") mem).

Lemma fe_eval E : lookup "m" E = Some g -> ev E fe = Some (GV (TSlice k) (VList l)).
Proof. intros H. cbn [eval]. now rewrite H. Qed.

Lemma index_eval n x j : nth_error l n = Some x ->
  ev (("iNdEx", GInt (Z.of_nat n)) :: K j) (EIdx fe (EVar "iNdEx")) = Some (GV (kind_type k) x).
Proof.
  intros H. cbn [eval]. change (lookup "m" (("iNdEx", GInt (Z.of_nat n)) :: K j)) with (lookup "m" (K j)).
  rewrite Hm, Sel. change (lookup "iNdEx" (("iNdEx", GInt (Z.of_nat n)) :: K j)) with (Some (GInt (Z.of_nat n))).
  cbn [index_of]. destruct (Z.ltb_spec (Z.of_nat n) 0); [lia|]. now rewrite Nat2Z.id, H.
Qed.
Lemma index_steady n x : nth_error l n = Some x ->
  steady (fun j => ("iNdEx", GInt (Z.of_nat n)) :: K j) (EIdx fe (EVar "iNdEx")) (GV (kind_type k) x).
Proof. intros H. split; [reflexivity|]. intros j. now apply index_eval. Qed.
Lemma index_inv (n : nat) : inv (fun j => ("iNdEx", GInt (Z.of_nat n)) :: K j).
Proof. now apply inv_cons. Qed.

(** A list that is not packed. *)
Lemma list_run c n buf i : 0 <= i <= zlen buf -> zlen buf < imax -> (forall x, In x l -> (vdepth x < depth)%nat) ->
  sim none K buf i (run_all (map (encodeTagged sc rec n k) (rev l)) (buf, i))
    (run num (mblock [MDown fe (mblock (fst (g_item dp strict c n k (EIdx fe (EVar "iNdEx")))))]) (K i) buf).
Proof.
  intros Hi Hb Hd. rewrite block_one. cbn [mexec].
  replace (eval sc call (K i) (ELen fe)) with (Some (GInt (zlen l)))
    by (cbn [eval]; rewrite Hm, Sel; reflexivity).
  unfold zlen. rewrite Nat2Z.id. apply down_run; auto.
  intros m x b j Hx Hj Hz. apply (item_run (fun j => ("iNdEx", GInt (Z.of_nat m)) :: K j)); auto.
  - apply index_inv.
  - now apply index_steady.
  - apply T. eapply nth_error_In, Hx.
  - apply Hd. eapply nth_error_In, Hx.
Qed.

Lemma mul_eval c j : 0 <= c * zlen l < imax -> ev (K j) (EMul (ELen fe) (EInt c)) = Some (GInt (zlen l * c)).
Proof.
  intros H. cbn [eval]. rewrite Hm, Sel. cbn [length_of int_op]. rewrite int_id by lia. reflexivity.
Qed.
Lemma len_eval j : ev (K j) (ELen fe) = Some (GInt (zlen l * 1)).
Proof. cbn [eval]. rewrite Hm, Sel. cbn [length_of]. now rewrite Z.mul_1_r. Qed.

(** Sizes of the numbers of a packed list. *)
Lemma size_eval y E : In y l -> classify k = CVar \/ classify k = CZig ->
  ev (("num", GV (kind_type k) y) :: E) (match classify k with CZig => soz (EVar "num") | _ => sov (EVar "num") end)
  = Some (GInt (match classify k with CZig => SizeOfZigzag (u64 (vint y)) | _ => SizeOfVarint (u64 (vint y)) end)).
Proof.
  intros Hy Hk. specialize (T y Hy).
  assert (exists z, y = VInt z) as [z ->].
  { destruct (wt_elem_num sc k y) as (z & -> & _); [destruct k; cbn in Hk; destruct Hk as [Hk|Hk]; try discriminate Hk; reflexivity|exact T|eauto]. }
  cbn [vint]. destruct k; cbn [classify kind_type] in *; destruct Hk as [Hk|Hk]; try discriminate Hk; reflexivity.
Qed.

Lemma pair1 x j E : String.eqb x j = false -> String.eqb j x = false ->
  pair_env (fun g o => (x, g) :: (j, GInt o) :: E) x j.
Proof.
  intros N1 N2. split; intros; cbn [lookup assign List.length]; rewrite ?String.eqb_refl, ?N1, ?N2, ?String.eqb_refl; reflexivity.
Qed.
Lemma pair2 x j y h E : String.eqb x j = false -> String.eqb j x = false -> String.eqb j y = false ->
  pair_env (fun g o => (x, g) :: (y, h) :: (j, GInt o) :: E) x j.
Proof.
  intros N1 N2 N3. split; intros; cbn [lookup assign List.length];
    rewrite ?String.eqb_refl, ?N1, ?N2, ?N3, ?String.eqb_refl; reflexivity.
Qed.

Lemma numeric64 : numeric GU64. Proof. split; reflexivity. Qed.
Lemma numeric32 : numeric GU32. Proof. split; reflexivity. Qed.
Lemma numeric_u64 : numeric (fun z => GV (TKind KUint64) (VInt z)). Proof. split; reflexivity. Qed.
Lemma numeric_u32 : numeric (fun z => GV (TKind KUint32) (VInt z)). Proof. split; reflexivity. Qed.

(** The bodies of the inner loops. *)
Lemma body1 L N x j v off buf buf' : pair_env L x j -> numeric N -> 0 <= v < 2 ^ 64 -> 0 <= off + 1 < imax ->
  zset buf off (Z.lor (Z.land v 127) 128) = Some buf' ->
  run num (mblock [g_put7 j x; MShr x; MInc j]) (L (N v) off) buf = MNext (L (N (Z.shiftr v 7)) (off + 1)) buf'.
Proof.
  intros P Nu Hv Ho E. cbn [mblock].
  change (run num (MSeq (g_put7 j x) (MSeq (MShr x) (MSeq (MInc j) MSkip))) (L (N v) off) buf)
    with (match run num (g_put7 j x) (L (N v) off) buf with
          | MNext E' b => run num (MSeq (MShr x) (MSeq (MInc j) MSkip)) E' b | o => o end).
  rewrite (put7_run L N x j num v off buf buf' P Nu Hv E).
  change (run num (MSeq (MShr x) (MSeq (MInc j) MSkip)) (L (N v) off) buf')
    with (match run num (MShr x) (L (N v) off) buf' with
          | MNext E' b => run num (MSeq (MInc j) MSkip) E' b | o => o end).
  rewrite (shr_run L N x j num v off buf' P Nu).
  change (run num (MSeq (MInc j) MSkip) ?X ?y) with (match run num (MInc j) X y with MNext E' b => MNext E' b | o => o end).
  now rewrite (inc_run L x j num _ off buf' P Ho).
Qed.
Lemma body2 L N x j v off buf buf' : pair_env L x j -> numeric N -> 0 <= v < 2 ^ 64 -> 0 <= off + 1 < imax ->
  zset buf off (Z.lor (Z.land v 127) 128) = Some buf' ->
  run num (mblock [g_put7 j x; MInc j; MShr x]) (L (N v) off) buf = MNext (L (N (Z.shiftr v 7)) (off + 1)) buf'.
Proof.
  intros P Nu Hv Ho E. cbn [mblock].
  change (run num (MSeq (g_put7 j x) (MSeq (MInc j) (MSeq (MShr x) MSkip))) (L (N v) off) buf)
    with (match run num (g_put7 j x) (L (N v) off) buf with
          | MNext E' b => run num (MSeq (MInc j) (MSeq (MShr x) MSkip)) E' b | o => o end).
  rewrite (put7_run L N x j num v off buf buf' P Nu Hv E).
  change (run num (MSeq (MInc j) (MSeq (MShr x) MSkip)) (L (N v) off) buf')
    with (match run num (MInc j) (L (N v) off) buf' with
          | MNext E' b => run num (MSeq (MShr x) MSkip) E' b | o => o end).
  rewrite (inc_run L x j num _ off buf' P Ho).
  change (run num (MSeq (MShr x) MSkip) ?X ?y) with (match run num (MShr x) X y with MNext E' b => MNext E' b | o => o end).
  now rewrite (shr_run L N x j num v (off + 1) buf' P Nu).
Qed.

Lemma u64_range z : 0 <= u64 z < 2 ^ 64.
Proof. unfold u64. apply Z.mod_pos_bound. lia. Qed.
Lemma zig_range kd z : kd = KSint32 \/ kd = KSint64 -> in_range kd z = true -> 0 <= zigzag kd z < 2 ^ 64.
Proof. intros Hk R. rewrite <- (zigzag_range kd z Hk R). apply u64_range. Qed.

(** A number of a packed list: unsigned, signed, zig-zag. *)
Lemma unsigned_run c z E kd buf off buf' off' : kd = KUint64 \/ kd = KUint32 -> in_range kd z = true -> zlen buf < imax ->
  varint_loop (varint_fuel (u64 z)) buf off (u64 z) = Ok (buf', off') ->
  exists Q, run num (mblock ([MWhile "num" (mblock [g_put7 (jvar c) "num"; MShr "num"; MInc (jvar c)])] ++ g_last (jvar c) "num"))
    (("num", GV (TKind kd) (VInt z)) :: (jvar c, GInt off) :: E) buf = MNext (Q ++ (jvar c, GInt off') :: E) buf'.
Proof.
  intros Hk R B H. assert (u64 z = z) as Ez
    by (unfold u64; apply Z.mod_small; destruct Hk as [-> | ->]; unfold in_range in R; lia).
  rewrite Ez in H. pose proof (u64_range z) as Rz. rewrite Ez in Rz.
  assert (numeric (fun z => GV (TKind kd) (VInt z))) as Nu
    by (destruct Hk as [-> | ->]; [exact numeric_u64|exact numeric_u32]).
  pose proof (pair1 "num" (jvar c) E eq_refl eq_refl) as P.
  destruct (number_run (fun g o => ("num", g) :: (jvar c, GInt o) :: E) (fun z => GV (TKind kd) (VInt z)) "num" (jvar c) num
    (mblock [g_put7 (jvar c) "num"; MShr "num"; MInc (jvar c)]) z off buf buf' off' (varint_fuel z) P Nu) with (4 := H) as [v' Ev]; auto.
  { intros. now apply (body1 (fun g o => ("num", g) :: (jvar c, GInt o) :: E) (fun z => GV (TKind kd) (VInt z))). }
  exists [("num", GV (TKind kd) (VInt v'))]. exact Ev.
Qed.
Lemma signed_run c z E kd buf off buf' off' : kd = KInt64 \/ kd = KInt32 \/ kd = KEnum -> zlen buf < imax ->
  varint_loop (varint_fuel (u64 z)) buf off (u64 z) = Ok (buf', off') ->
  exists Q, run num (mblock (MDo (SDef "num" (EU64 (EVar "num1"))) ::
      ([MWhile "num" (mblock [g_put7 (jvar c) "num"; MShr "num"; MInc (jvar c)])] ++ g_last (jvar c) "num")))
    (("num1", GV (TKind kd) (VInt z)) :: (jvar c, GInt off) :: E) buf = MNext (Q ++ (jvar c, GInt off') :: E) buf'.
Proof.
  intros Hk B H.
  pose proof (pair2 "num" (jvar c) "num1" (GV (TKind kd) (VInt z)) E eq_refl eq_refl eq_refl) as P.
  destruct (number_run (fun g o => ("num", g) :: ("num1", GV (TKind kd) (VInt z)) :: (jvar c, GInt o) :: E) GU64 "num" (jvar c) num
    (mblock [g_put7 (jvar c) "num"; MShr "num"; MInc (jvar c)]) (u64 z) off buf buf' off' (varint_fuel (u64 z)) P numeric64) with (4 := H) as [v' Ev];
    auto using u64_range.
  { intros. now apply (body1 (fun g o => ("num", g) :: ("num1", GV (TKind kd) (VInt z)) :: (jvar c, GInt o) :: E) GU64 "num" (jvar c)). }
  exists [("num", GU64 v'); ("num1", GV (TKind kd) (VInt z))].
  cbn beta in Ev. cbn [app]. rewrite <- Ev. cbn [app mblock]. cbn [mexec exec eval].
  change (lookup "num1" (("num1", ?y) :: ?w)) with (Some y).
  destruct Hk as [-> |[-> | ->]]; reflexivity.
Qed.
Lemma zig_run c d z E kd buf off buf' off' : kd = KSint32 \/ kd = KSint64 -> in_range kd z = true -> zlen buf < imax ->
  varint_loop (varint_fuel (zigzag kd z)) buf off (zigzag kd z) = Ok (buf', off') ->
  exists Q, run num (mblock ([MDo (SDef (xvar d) (g_zigzag kd (EVar "num")));
      MWhile (xvar d) (mblock [g_put7 (jvar c) (xvar d); MInc (jvar c); MShr (xvar d)])] ++ g_last (jvar c) (xvar d)))
    (("num", GV (TKind kd) (VInt z)) :: (jvar c, GInt off) :: E) buf = MNext (Q ++ (jvar c, GInt off') :: E) buf'.
Proof.
  intros Hk R B H.
  pose proof (pair2 (xvar d) (jvar c) "num" (GV (TKind kd) (VInt z)) E eq_refl eq_refl eq_refl) as P.
  set (N := match kd with KSint32 => GU32 | _ => GU64 end).
  assert (numeric N) as Nu by (destruct Hk as [-> | ->]; [exact numeric32|exact numeric64]).
  assert (zval kd z = N (zigzag kd z)) as Ez by (destruct Hk as [-> | ->]; reflexivity).
  destruct (number_run (fun g o => (xvar d, g) :: ("num", GV (TKind kd) (VInt z)) :: (jvar c, GInt o) :: E) N (xvar d) (jvar c) num
    (mblock [g_put7 (jvar c) (xvar d); MInc (jvar c); MShr (xvar d)]) (zigzag kd z) off buf buf' off' (varint_fuel (zigzag kd z)) P Nu) with (4 := H) as [v' Ev];
    auto using zig_range.
  { intros. now apply (body2 (fun g o => (xvar d, g) :: ("num", GV (TKind kd) (VInt z)) :: (jvar c, GInt o) :: E) N (xvar d) (jvar c)). }
  exists [(xvar d, N v'); ("num", GV (TKind kd) (VInt z))].
  cbn beta in Ev. cbn [app]. rewrite <- Ev. cbn [app mblock]. cbn [mexec exec].
  rewrite (zigzag_eval kd z) by (auto; reflexivity). rewrite Ez. reflexivity.
Qed.

Lemma names_ok c : (forall y, In y ["i"; "m"; "num"; "_"] -> String.eqb y (total (c + 2)) = false
  /\ String.eqb y (jvar (c + 1)) = false /\ String.eqb (total (c + 2)) y = false)
  /\ String.eqb (total (c + 2)) (jvar (c + 1)) = false.
Proof.
  split; [|reflexivity]. intros y [<-|[<-|[<-|[<-|[]]]]]; repeat split; reflexivity.
Qed.

End List.

Lemma ev_u64 E e g : ev E e = Some g -> ev E (EU64 e) = to_u64 g.
Proof. intros H. cbn [eval]. now rewrite H. Qed.
Lemma ev_u32 E e g : ev E e = Some g -> ev E (EU32 e) = to_u32 g.
Proof. intros H. cbn [eval]. now rewrite H. Qed.
Lemma ev_f64 E e g : ev E e = Some g -> ev E (EF64 e) = bits64 g.
Proof. intros H. cbn [eval]. now rewrite H. Qed.
Lemma ev_f32 E e g : ev E e = Some g -> ev E (EF32 e) = bits32 g.
Proof. intros H. cbn [eval]. now rewrite H. Qed.

Lemma packed_run K num g mem k l c n buf i : inv K -> (forall j, lookup "m" (K j) = Some g) ->
  select sc g mem = Some (GV (TSlice k) (VList l)) -> (forall x, In x l -> wt_elem sc k x) ->
  0 <= i <= zlen buf -> zlen buf < imax -> is_num k = true -> l <> [] ->
  sim any K buf i (encodePacked n k l (buf, i)) (run num (mblock (fst (g_packed c n k (ESel (EVar "m") mem)))) (K i) buf).
Proof.
  intros I Hm Sel T Hi Hb N Hl. set (fe := ESel (EVar "m") mem).
  assert (forall m x, nth_error l m = Some x -> exists z, x = VInt z /\ in_range k z = true) as Num.
  { intros m x Hx. apply nth_error_In in Hx. apply (wt_elem_num sc k x N). now apply T. }
  assert (forall x, In x l -> exists z, x = VInt z /\ in_range k z = true) as Num2.
  { intros x Hx. apply (wt_elem_num sc k x N). now apply T. }
  pose proof (names_ok c) as [N1 N2].
  assert (forall te y a E, In y l -> classify k = CVar \/ classify k = CZig ->
    te = match classify k with CZig => soz (EVar "num") | _ => sov (EVar "num") end ->
    ev (("num", GV (kind_type k) y) :: ("_", GNil) :: (total (c + 2), GInt a) :: E) te
    = Some (GInt (match classify k with CZig => SizeOfZigzag (u64 (vint y)) | _ => SizeOfVarint (u64 (vint y)) end))) as Sz.
  { intros te y a E Hy Hk ->. eapply size_eval; eauto. }
  assert (classify k = CVar \/ classify k = CZig -> forall te x body,
    te = match classify k with CZig => soz (EVar "num") | _ => sov (EVar "num") end ->
    (forall E e buf off buf' off', In e l -> zlen buf < imax ->
     varint_loop (varint_fuel (varint_arg k (vint e))) buf off (varint_arg k (vint e)) = Ok (buf', off') ->
     exists Q, run num body ((x, GV (kind_type k) e) :: (jvar (c + 1), GInt off) :: E) buf = MNext (Q ++ (jvar (c + 1), GInt off') :: E) buf') ->
    sim any K buf i (encodePacked n k l (buf, i))
    (run num (mblock ([MDo (SVar (total (c + 2))); MDo (SRange "_" "num" fe (SAddTo (total (c + 2)) te)); MSub (EVar (total (c + 2))); MDo (SDef (jvar (c + 1)) (EVar "i"));
       MRange x fe body; g_varint (EVar (total (c + 2)))] ++ g_key n 2)) (K i) buf)) as Var.
  { intros Ck te x body Ht Hbody. apply (packed_var_run K num n fe g k l); auto.
    intros E HE. unfold fe. eapply fe_eval; eauto. }
  assert (forall tot e body cc (F : val -> mst -> mres), tot = zlen l * cc -> 0 < cc ->
    (forall b i b' i' x, F x (b, i) = Ok (b', i') -> i' = i - cc /\ 0 <= i') ->
    (forall j, 0 <= cc * zlen l < imax -> ev (K j) e = Some (GInt (zlen l * cc))) ->
    (forall m x buf i, nth_error l m = Some x -> 0 <= i <= zlen buf -> zlen buf < imax ->
     sim any (fun j => ("iNdEx", GInt (Z.of_nat m)) :: K j) buf i (F x (buf, i))
       (run num (mblock body) (("iNdEx", GInt (Z.of_nat m)) :: K i) buf)) ->
    sim any K buf i
      (do st <- run_all (map F (rev l)) (buf, i); do st <- encodeVarint tot st; encodeKey n 2 st)
      (run num (mblock ([MDown fe (mblock body); g_varint e] ++ g_key n 2)) (K i) buf)) as Fix.
  { intros tot e body cc F -> Hc HF He Hbody.
    apply (packed_fixed_run K num n fe g (GV (TSlice k) (VList l)) k l cc F); auto.
    intros E HE. unfold fe. eapply fe_eval; eauto. }
  pose proof (fun m => index_inv K I m) as II.
  pose proof (index_eval K g mem k l Hm Sel) as IE. fold fe in IE.
  pose proof (mul_eval K g mem k l Hm Sel) as ME. fold fe in ME.
  pose proof (len_eval K g mem k l Hm Sel) as LE. fold fe in LE.
  unfold g_packed, encodePacked. clearbody fe.
  destruct k; try discriminate N; cbn [classify fst kind_type] in *.
  all: try (apply (Var (or_introl eq_refl) (sov (EVar "num")) "num1"); [reflexivity|]; intros E e b o b' o' He Hz Hv; destruct (Num2 e He) as (z & -> & R);
            cbn [vint varint_arg classify] in *; eapply signed_run; eauto; fail).
  all: try (apply (Var (or_introl eq_refl) (sov (EVar "num")) "num"); [reflexivity|]; intros E e b o b' o' He Hz Hv; destruct (Num2 e He) as (z & -> & R);
            cbn [vint varint_arg classify] in *; eapply unsigned_run; eauto; fail).
  all: try (apply (Var (or_intror eq_refl) (soz (EVar "num")) "num"); [reflexivity|]; intros E e b o b' o' He Hz Hv; destruct (Num2 e He) as (z & -> & R);
            cbn [vint varint_arg classify] in *; eapply zig_run; eauto; fail).
  all: clear Var Sz.
  all: match goal with
    | _ : context [KBool] |- _ => apply (Fix _ _ _ 1); [now rewrite Z.mul_1_r|lia|intros b i0 b' i' x; apply bool_count|auto|]
    | |- context [encodeFixed64] => apply (Fix _ _ _ 8); [reflexivity|lia|intros b i0 b' i' x; apply (fixed_count 8)|auto|]
    | |- _ => apply (Fix _ _ _ 4); [reflexivity|lia|intros b i0 b' i' x; apply (fixed_count 4)|auto|]
    end; intros m x b j Hx Hj Hz; destruct (Num m x Hx) as (z & -> & R); cbn [vint]; clear Fix.
  all: try (apply (sim_none any); [exact Logic.I|]; apply (bool_run (fun j => ("iNdEx", GInt (Z.of_nat m)) :: K j)); auto; fail).
  all: lazymatch goal with
    | |- sim _ _ _ _ _ (run _ (mblock (_ ++ _)) _ _) => idtac
    | |- _ => apply (sim_none any); [exact Logic.I|];
       unfold g_fixed64, g_fixed32, encodeFixed64, encodeFixed32; change 8 with (Z.of_nat 8); change 4 with (Z.of_nat 4);
       apply (fixed_run (fun j => ("iNdEx", GInt (Z.of_nat m)) :: K j)); auto; intros w; pose proof (IE m (VInt z) w Hx) as Ew;
       cbn beta; rewrite ?(ev_u64 _ _ _ Ew), ?(ev_u32 _ _ _ Ew); auto
    end.
  - eapply (sim_def none); [rewrite (ev_f64 _ _ _ (IE m (VInt z) j Hx)); reflexivity|].
    apply (sim_none none); [reflexivity|]. unfold g_fixed64, encodeFixed64; change 8 with (Z.of_nat 8).
    apply (fixed_run (fun j => (fvar (c + 1), GU64 z) :: ("iNdEx", GInt (Z.of_nat m)) :: K j)); auto.
    + now apply (inv_cons (fun j => ("iNdEx", GInt (Z.of_nat m)) :: K j)).
    + intros w. left. cbn [eval lookup]. rewrite String.eqb_refl. reflexivity.
  - eapply (sim_def none); [rewrite (ev_f32 _ _ _ (IE m (VInt z) j Hx)); reflexivity|].
    apply (sim_none none); [reflexivity|]. unfold g_fixed32, encodeFixed32; change 4 with (Z.of_nat 4).
    apply (fixed_run (fun j => (fvar (c + 1), GU32 z) :: ("iNdEx", GInt (Z.of_nat m)) :: K j)); auto.
    + now apply (inv_cons (fun j => ("iNdEx", GInt (Z.of_nat m)) :: K j)).
    + intros w. right. cbn [eval lookup]. rewrite String.eqb_refl. reflexivity.
Qed.

(** * Maps *)
Lemma key_eqb_refl kk x : key_kind kk = true -> wt_elem sc kk x -> key_eqb x x = true.
Proof.
  intros Hk T. inversion T as [? z R|? Q|? Q| |k' m' E'|k' m' v' E' M]; subst; try discriminate Hk.
  - apply Z.eqb_refl.
  - cbn [key_eqb]. now destruct (list_eq_dec Z.eq_dec s s).
  - destruct kk; discriminate.
  - destruct kk; discriminate.
Qed.
Lemma key_eqb_eq x y : key_eqb x y = true -> x = y.
Proof.
  destruct x; destruct y; cbn [key_eqb]; try discriminate.
  - intros H. apply Z.eqb_eq in H. now subst.
  - destruct (list_eq_dec Z.eq_dec s s0); [now subst|discriminate].
Qed.
Lemma find_key kk (l : list (val * val)) e : key_kind kk = true -> (forall e, In e l -> wt_elem sc kk (fst e)) ->
  NoDup (map fst l) -> In e l -> find (fun y => key_eqb (fst e) (fst y)) l = Some e.
Proof.
  intros Hk T ND He. destruct (find _ l) as [y|] eqn:Fd.
  - apply find_some in Fd as [Hy Ey]. apply key_eqb_eq in Ey. f_equal.
    clear T. induction l as [|a l IH]; [destruct He|]. cbn [map] in ND. inversion ND as [|? ? Na Nl]; subst.
    destruct He as [->|He]; destruct Hy as [->|Hy]; auto.
    + elim Na. rewrite Ey. now apply in_map.
    + elim Na. rewrite <- Ey. now apply in_map.
  - apply find_none with (x := e) in Fd; [|exact He]. now rewrite (key_eqb_refl kk) in Fd by auto.
Qed.
Lemma key_type kk : key_kind kk = true -> kind_type kk = TKind kk.
Proof. destruct kk; try discriminate; reflexivity. Qed.
Lemma key_depth kk x : key_kind kk = true -> wt_elem sc kk x -> vdepth x = 0%nat.
Proof.
  intros Hk T. inversion T as [? z R|? Q|? Q| |k' m' E'|k' m' v' E' M]; subst; try discriminate Hk; try reflexivity.
  - destruct kk; discriminate.
Qed.

Lemma entry_run K num n kk vk e buf i : inv K -> 0 <= i <= zlen buf -> zlen buf < imax ->
  steady K (EVar "v") (GV (kind_type vk) (snd e)) -> steady K (EVar "k") (GV (kind_type kk) (fst e)) ->
  (forall j, lookup "baseI" (K j) = Some (GInt i)) ->
  wt_elem sc kk (fst e) -> wt_elem sc vk (snd e) -> (vdepth (fst e) < depth)%nat -> (vdepth (snd e) < depth)%nat ->
  sim locals K buf i (encodeEntry sc rec n kk vk e (buf, i))
    (run num (mblock (g_value dp strict vk (EVar "v") ++ g_key 2 (ProtoWireType vk)
         ++ g_value dp strict kk (EVar "k") ++ g_key 1 (ProtoWireType kk)
         ++ [g_varint (ESub (EVar "baseI") (EVar "i"))] ++ g_key n 2)) (K i) buf).
Proof.
  intros I Hi Hb Sv Sk Hbase Tk Tv Lk Lv. unfold encodeEntry. cbn [fst snd].
  eapply (sim_seq locals locals locals).
  { now apply value_run. }
  2: { intros Q Q' HQ HQ'. now apply locals_app. }
  intros Q b j LQ Lb Bj _. set (K1 := fun j => Q ++ K j).
  assert (inv K1) as I1 by now apply inv_app.
  eapply (sim_seq none locals locals K1).
  { apply (key_run K1); auto; lia. }
  2: { intros R R' -> HR'. rewrite app_nil_r. exact HR'. }
  intros R b1 j1 -> Lb1 Bj1 _. cbn [app].
  eapply (sim_seq locals locals locals K1).
  { apply value_run; auto; try lia. now apply steady_app. }
  2: { intros R R' HR0 HR'. now apply locals_app. }
  intros R b2 j2 LR Lb2 Bj2 _. set (K2 := fun j => R ++ K1 j).
  assert (inv K2) as I2 by now apply inv_app.
  eapply (sim_seq none locals locals K2).
  { apply (key_run K2); auto; lia. }
  2: { intros R0 R' -> HR'. rewrite app_nil_r. exact HR'. }
  intros R0 b3 j3 -> Lb3 Bj3 _. cbn [app].
  eapply (sim_seq none locals locals K2 num [g_varint (ESub (EVar "baseI") (EVar "i"))] (g_key n 2)).
  { unfold g_varint. apply (varint_run K2); auto; try lia. cbn [eval].
    assert (lookup "baseI" (K2 j3) = Some (GInt i)) as ->
      by (unfold K2, K1; rewrite !lookup_locals by (auto; reflexivity); apply Hbase).
    rewrite (inv_get K2 I2). cbn [int_op to_u64 word snd]. rewrite int_id by lia. f_equal. apply word_id. lia. }
  2: { intros R0 R' -> HR'. rewrite app_nil_r. exact HR'. }
  intros R0 b4 j4 -> Lb4 Bj4 _. apply (sim_none locals); [apply locals_nil|].
  apply (key_run K2); auto; lia.
Qed.

Lemma map_run K num g mem n kk vk l buf i : inv K -> (forall j, lookup "m" (K j) = Some g) ->
  select sc g mem = Some (GV (TMapOf kk vk) (VMap l)) -> key_kind kk = true ->
  (forall e, In e l -> wt_elem sc kk (fst e)) -> (forall e, In e l -> wt_elem sc vk (snd e)) -> NoDup (map fst l) ->
  (forall e, In e l -> (vdepth (snd e) < depth)%nat) ->
  0 <= i <= zlen buf -> zlen buf < imax ->
  sim none K buf i (run_all (map (encodeEntry sc rec n kk vk) l) (buf, i))
    (run num (MKeys (ESel (EVar "m") mem) (mblock (
         [MDo (SDef "v" (EIdx (ESel (EVar "m") mem) (EVar "k"))); MDo (SDef "baseI" (EVar "i"))]
         ++ g_value dp strict vk (EVar "v") ++ g_key 2 (ProtoWireType vk)
         ++ g_value dp strict kk (EVar "k") ++ g_key 1 (ProtoWireType kk)
         ++ [g_varint (ESub (EVar "baseI") (EVar "i"))] ++ g_key n 2))) (K i) buf).
Proof.
  intros I Hm Sel Hk Tk Tv ND Ld Hi Hb. cbn [mexec eval]. rewrite Hm, Sel. cbn [items]. rewrite map_map. cbn [fst].
  apply (each_run K _ "k" (fun e => GV (kind_type kk) (fst e))); auto.
  intros e b j He Hj Hz.
  set (K0 := fun z => ("k", GV (kind_type kk) (fst e)) :: K z).
  assert (ev (K0 j) (EIdx (ESel (EVar "m") mem) (EVar "k")) = Some (GV (kind_type vk) (snd e))) as Ev.
  { unfold K0. cbn [eval]. change (lookup "m" (("k", GV (kind_type kk) (fst e)) :: K j)) with (lookup "m" (K j)).
    rewrite Hm, Sel. change (lookup "k" (("k", GV (kind_type kk) (fst e)) :: K j)) with (Some (GV (kind_type kk) (fst e))).
    rewrite key_type by exact Hk. cbn [index_of]. now rewrite (find_key kk l e). }
  cbn [app]. eapply (sim_def any K0); [exact Ev|].
  eapply (sim_def locals (fun z => ("v", GV (kind_type vk) (snd e)) :: K0 z)).
  { cbn [eval]. change (lookup "i" (("v", GV (kind_type vk) (snd e)) :: K0 j)) with (lookup "i" (K j)). apply (inv_get K I). }
  apply (entry_run (fun z => ("baseI", GInt j) :: ("v", GV (kind_type vk) (snd e)) :: K0 z)); auto.
  - apply (inv_cons (fun z => ("v", GV (kind_type vk) (snd e)) :: K0 z)); [reflexivity|].
    apply (inv_cons K0); [reflexivity|]. now apply inv_cons.
  - split; reflexivity.
  - split; reflexivity.
  - rewrite (key_depth kk (fst e)) by auto. specialize (Ld e He). lia.
Qed.

(** * Fields *)
Lemma sim_if (P : env -> Prop) K num c a b (t : bool) buf i r : inv K -> truth (ev (K i) c) = Some t ->
  sim P K buf i r (run num (if t then a else b) (K i) buf) -> sim none K buf i r (run num (MIf c a b) (K i) buf).
Proof.
  intros I Ht H. cbn [mexec]. rewrite Ht. destruct t; now apply (sim_leave P).
Qed.
Lemma sim_skip K num buf i : 0 <= i -> sim none K buf i (Ok (buf, i)) (run num MSkip (K i) buf).
Proof. intros H. cbn. repeat split; try lia. exists []. split; reflexivity. Qed.

Lemma ne_nil E e g b : ev E e = Some g -> nil_test g = Some b -> truth (ev E (ENe e ENil)) = Some (negb b).
Proof. intros H1 H2. cbn [eval]. rewrite H1, equals_nil, H2. reflexivity. Qed.
Lemma eq_nil E e g b : ev E e = Some g -> nil_test g = Some b -> truth (ev E (EEq e ENil)) = Some b.
Proof. intros H1 H2. cbn [eval]. rewrite H1, equals_nil, H2. reflexivity. Qed.
Lemma gt_zero E e g z : ev E e = Some g -> length_of g = Some (GInt z) -> truth (ev E (EGt (ELen e) (EInt 0))) = Some (0 <? z).
Proof. intros H1 H2. cbn [eval]. rewrite H1, H2. reflexivity. Qed.

Lemma set_eval E fe k v : ev E fe = Some (GV (kind_type k) v) -> has_message k = false -> wt_elem sc k v ->
  truth (ev E (g_set k fe)) = Some (implicit_set k v).
Proof.
  intros He Hm T. unfold g_set, implicit_set.
  destruct k; try discriminate Hm; cbn [classify kind_type] in *; inv_elem T v; cbn [vint vbytes];
    cbn [eval]; rewrite He; cbn [length_of equals truth negb]; reflexivity.
Qed.

Lemma field_run K num g n c f v buf i : inv K -> (forall j, lookup "m" (K j) = Some g) ->
  wf_type n (f_ty f) = true -> is_oneof f = false ->
  select sc g (MSlot (f_slot f)) = Some (GV (field_type (f_ty f)) v) ->
  (exists md, wt_field sc md f v) -> (vdepth v < depth)%nat ->
  0 <= i <= zlen buf -> zlen buf < imax ->
  sim none K buf i (marshal_field sc rec f v (buf, i)) (run num (fst (g_field dp strict c f)) (K i) buf).
Proof.
  intros I Hm Wt No S [md T] L Hi Hb. apply wt_field_inv in T.
  set (fe := ESel (EVar "m") (MSlot (f_slot f))).
  assert (forall j, ev (K j) fe = Some (GV (field_type (f_ty f)) v)) as Hfe
    by (intros j; unfold fe; cbn [eval]; now rewrite Hm).
  unfold marshal_field, g_field. unfold is_oneof in No.
  (* a field with presence: a pointer to the value or the value *)
  assert (forall k, field_type (TField LOptional k) = field_type (TField LRequired k)) as FtE by reflexivity.
  assert (forall k, f_ty f = TField LOptional k \/ f_ty f = TField LRequired k -> 
    (v = VNil \/ (exists x, v = VPtr x /\ (is_num k = true \/ k = KString) /\ wt_elem sc k x)
      \/ (is_num k = false /\ k <> KString /\ wt_elem sc k v)) ->
    nil_test (GV (field_type (TField LOptional k)) v) = Some (is_nil v)
    /\ (is_nil v = false -> sim locals K buf i (encodeTagged sc rec (f_num f) k (deref v) (buf, i))
          (run num (mblock (g_tagged dp strict (f_num f) k (if is_pointer k then EStar fe else fe))) (K i) buf))) as Pres.
  { clear Wt No T. intros k Ek T.
    assert (field_type (f_ty f) = field_type (TField LOptional k)) as Ft by (destruct Ek as [-> | ->]; reflexivity).
    rewrite Ft in *. clear Ft Ek.
    destruct T as [->|[(x & -> & Hk & T)|(H1 & H2 & T)]].
    - split; [destruct k; reflexivity|discriminate].
    - assert (field_type (TField LOptional k) = TPtr k) as Ft
        by (destruct Hk as [Hk| ->]; [destruct k; try discriminate Hk; reflexivity|reflexivity]).
      cbn [field_type] in Ft, Hfe. rewrite Ft in *. split; [cbn [field_type]; rewrite Ft; reflexivity|]. intros _.
      replace (is_pointer k) with true by (destruct Hk as [Hk| ->]; [destruct k; try discriminate Hk; reflexivity|reflexivity]).
      cbn [deref]. apply tagged_run; auto. 2: { cbn in L. lia. }
      split; [reflexivity|]. intros j. cbn [eval]. change (eval sc call) with ev. rewrite Hfe. cbn [load].
      destruct Hk as [Hk| ->]; [destruct k; try discriminate Hk; reflexivity|reflexivity].
    - assert (field_type (TField LOptional k) = kind_type k) as Ft
        by (destruct k; try discriminate H1; try reflexivity; now elim H2).
      cbn [field_type] in Ft, Hfe. rewrite Ft in *.
      split; [cbn [field_type]; rewrite Ft; destruct k; try discriminate H1; try reflexivity; now elim H2|].
      intros Nv.
      assert (deref v = v) as -> by (destruct v; try reflexivity; now apply wt_elem_notptr in T).
      replace (is_pointer k) with false by (destruct k; try discriminate H1; try reflexivity; now elim H2).
      apply tagged_run; auto. split; [reflexivity|]. exact Hfe. }
  destruct (f_ty f) as [[| | |p|] k|kk vk] eqn:Et; try discriminate No; cbn [fst].
  - (* no presence *)
    cbn [wf_type] in Wt. apply andb_true_iff in Wt as [_ Wt].
    assert (has_message k = false) as Hn by (destruct k; try discriminate Wt; reflexivity). rewrite Hn.
    cbn [field_type] in *. cbn [fst]. apply (sim_if locals) with (t := implicit_set k v); auto.
    + now apply set_eval.
    + destruct (implicit_set k v); [|apply (sim_none locals); [apply locals_nil|]; apply sim_skip; lia].
      apply tagged_run; auto. split; [reflexivity|exact Hfe].
  - destruct (Pres k (or_introl eq_refl) T) as [Pn Pr].
    apply (sim_if locals) with (t := negb (is_nil v)); auto.
    + eapply ne_nil; [apply Hfe|exact Pn].
    + destruct (is_nil v); cbn [negb]; [apply (sim_none locals); [apply locals_nil|]; apply sim_skip; lia|auto].
  - destruct (Pres k (or_intror eq_refl) T) as [Pn Pr].
    apply (sim_if locals) with (t := is_nil v); auto.
    + eapply eq_nil; [apply Hfe|exact Pn].
    + destruct (is_nil v); [|auto]. cbn [sim]. exists buf, (GInt 0). reflexivity.
  - apply andb_true_iff in Wt as [_ Wt]. apply andb_true_iff in Wt as [Wp Wg].
    cbn [field_type] in *. destruct T as [->|(xs & -> & T)].
    + apply (sim_if none) with (t := 0 <? 0); auto; [eapply gt_zero; [apply Hfe|reflexivity]|].
      cbn [vlist]. change (0 <? zlen (@nil val)) with false. destruct p; apply sim_skip; lia.
    + cbn [vlist]. apply (sim_if any) with (t := 0 <? zlen xs); auto; [eapply gt_zero; [apply Hfe|reflexivity]|].
      destruct (0 <? zlen xs) eqn:Z0;
        [|destruct p; (apply (sim_none any); [exact Logic.I|apply sim_skip; lia])].
      assert (forall x, In x xs -> (vdepth x < depth)%nat) as Lx
        by (intros x Hx; pose proof (vdepth_list xs x Hx); lia).
      destruct p; cbn [fst].
      * apply (packed_run K num g (MSlot (f_slot f)) k xs); auto. intros ->. discriminate Z0.
      * apply (sim_none any); [exact Logic.I|]. apply (list_run K num g (MSlot (f_slot f)) k xs); auto.
  - cbn [field_type wf_type] in *. apply andb_true_iff in Wt as [Wt Wg].
    apply andb_true_iff in Wt as [Wk _].
    destruct T as [->|(xs & -> & Tk & Tv & ND)].
    + apply (sim_if none) with (t := 0 <? 0); auto; [eapply gt_zero; [apply Hfe|reflexivity]|].
      cbn [vmap]. change (0 <? zlen (@nil (val * val))) with false. apply sim_skip; lia.
    + cbn [vmap]. apply (sim_if none) with (t := 0 <? zlen xs); auto; [eapply gt_zero; [apply Hfe|reflexivity]|].
      destruct (0 <? zlen xs) eqn:Z0; [|apply sim_skip; lia]. rewrite block_one.
      apply (map_run K num g (MSlot (f_slot f))); auto.
      intros [y x] He. pose proof (vdepth_map xs y x He). cbn [snd]. lia.
Qed.

(** A field in a oneof: the statements of its wrapper's method. *)
Lemma member_run K num g c f k x buf i : inv K -> (forall j, lookup "m" (K j) = Some g) ->
  f_ty f = TField LOneof k -> is_group k = false ->
  select sc g (MIn (f_num f)) = Some (GV (kind_type k) x) ->
  wt_elem sc k x -> (vdepth x < depth)%nat -> 0 <= i <= zlen buf -> zlen buf < imax ->
  sim locals K buf i (marshal_field sc rec f x (buf, i)) (run num (fst (g_field dp strict c f)) (K i) buf).
Proof.
  intros I Hm Ef G S T L Hi Hb. unfold marshal_field, g_field. rewrite Ef.
  set (fe := ESel (EVar "m") (MIn (f_num f))).
  assert (forall j, ev (K j) fe = Some (GV (kind_type k) x)) as Hfe
    by (intros j; unfold fe; cbn [eval]; now rewrite Hm).
  destruct (has_message k) eqn:Hk; cbn [fst].
  - destruct k; try discriminate Hk; try discriminate G. cbn [classify kind_type] in *.
    apply (sim_none locals); [apply locals_nil|].
    apply (sim_if locals) with (t := negb (is_nil x)); auto; [eapply ne_nil; [apply Hfe|reflexivity]|].
    destruct (is_nil x); cbn [negb].
    + apply (sim_none locals); [apply locals_nil|].
      eapply (sim_seq none none none K num [MVarint (EInt 0)]).
      * apply varint_run; auto. reflexivity.
      * intros Q b j -> Lb B _. apply key_run; auto; lia.
      * intros Q Q' -> ->. reflexivity.
    + apply tagged_run; auto. split; [reflexivity|exact Hfe].
  - assert (sim locals K buf i (encodeTagged sc rec (f_num f) k x (buf, i))
      (run num (mblock (g_tagged dp strict (f_num f) k fe)) (K i) buf)) as R
      by (apply tagged_run; auto; split; [reflexivity|exact Hfe]).
    destruct k; try discriminate Hk; exact R.
Qed.
End Body.

(** * Methods *)
Definition top (len : Z) (g : gval) (j : Z) : env := [("i", GInt j); ("dAtA", GBuf len); ("m", g)].
Definition top_l (len : Z) (g : gval) (j : Z) : env := ("l", GInt 0) :: top len g j.
Lemma inv_top len g : inv (top len g).
Proof. split; reflexivity. Qed.
Lemma inv_top_l len g : inv (top_l len g).
Proof. split; reflexivity. Qed.

Lemma end_run callee num Q E b i len : locals Q -> lookup "dAtA" E = Some (GBuf len) -> lookup "i" E = Some (GInt i) ->
  0 <= i <= len -> len < imax ->
  mexec sc call callee meth rounds num g_end (Q ++ E) b = MRet b (GInt (len - i)) None.
Proof.
  intros LQ Hd Hi0 H1 H2. unfold g_end. cbn [mexec eval].
  rewrite !lookup_locals by (auto; reflexivity). rewrite Hd, Hi0. cbn [length_of int_op error_of].
  now rewrite int_id by lia.
Qed.

Definition good (n : nat) : Prop := forall m v k buf, wt_ptrmsg sc m v ->
  md_foreign (md_of sc m) = false -> (vdepth v < n)%nat -> (vdepth v < k)%nat -> zlen buf < imax ->
  same (marshal_msg sc strict k m v buf) (run_sized dp strict sc call rounds n (GV (TMsg m) v) buf) buf.

Lemma good_calls n k d : (d <= n)%nat -> (d <= k)%nat -> good n ->
  forall m v buf, wt_ptrmsg sc m v -> (vdepth v < d)%nat -> md_foreign (md_of sc m) = false -> zlen buf < imax ->
  same (marshal_msg sc strict k m v buf) (run_sized dp strict sc call rounds n (GV (TMsg m) v) buf) buf.
Proof. intros H1 H2 G m v buf T L F B. apply G; auto; lia. Qed.

(** The method of a wrapper. *)
Lemma wrapper_run n k m f kd x buf : good n -> In f (md_fields (md_of sc m)) -> f_ty f = TField LOneof kd ->
  wt_elem sc kd x -> (vdepth x < n)%nat -> (vdepth x < k)%nat -> zlen buf < imax ->
  same (marshal_wrapper sc (marshal_msg sc strict k) f x buf)
    (run_sized dp strict sc call rounds (S n) (GV (TWrap m (f_num f)) (VOneof (f_num f) x)) buf) buf.
Proof.
  intros G Hf Ef T L1 L2 B.
  pose proof (good_calls n k (S (vdepth x)) ltac:(lia) ltac:(lia) G) as C.
  cbn [run_sized]. rewrite (find_member sc W m f Hf).
  unfold mmethod, g_wrapper, marshal_wrapper. cbn [fst].
  set (g := GV (TWrap m (f_num f)) (VOneof (f_num f) x)).
  match goal with |- context [g_field dp strict ?c f] => generalize c end. intros c.
  assert (is_group kd = false) as Hg.
  { pose proof (wf_ty sc m f W Hf) as Wt. rewrite Ef in Wt. cbn in Wt.
    apply andb_true_iff in Wt as [_ Wt]. now apply negb_true_iff in Wt. }
  assert (select sc g (MIn (f_num f)) = Some (GV (kind_type kd) x)) as Sel.
  { unfold g. cbn [select]. rewrite Z.eqb_refl. cbn [andb]. now rewrite (find_member sc W m f Hf), Ef. }
  pose proof (zlen_pos buf) as Z0.
  pose proof (member_run (run_sized dp strict sc call rounds n) (marshal_msg sc strict k) (S (vdepth x)) C
    (top (zlen buf) g) 0 g c f kd x buf (zlen buf) (inv_top _ _) (fun _ => eq_refl) Ef Hg Sel T ltac:(lia) ltac:(lia) B) as R.
  cbn [mblock]. cbn [mexec exec eval].
  change (lookup "dAtA" [("dAtA", GBuf (zlen buf)); ("m", g)]) with (Some (GBuf (zlen buf))). cbn [length_of].
  change [("i", GInt (zlen buf)); ("dAtA", GBuf (zlen buf)); ("m", g)] with (top (zlen buf) g (zlen buf)).
  destruct (marshal_field sc (marshal_msg sc strict k) f x (buf, zlen buf)) as [[b i]|e []| |]; cbn [rbind same fst snd]; try exact Logic.I.
  - destruct R as (A & B2 & Q & LQ & ->). cbn [fst snd]. split; [|lia].
    pose proof (end_run (run_sized dp strict sc call rounds n) 0 Q (top (zlen buf) g i) b i (zlen buf) LQ eq_refl eq_refl B2 B) as E.
    cbn [mexec] in E. now rewrite E.
  - destruct R as (b & g0 & ->). now destruct g0.
Qed.

Section Message.
Variables (n k m : nat) (slots : list val) (unk : list Z) (hid : list (list val)).
Notation v := (VMsg slots unk hid).
Notation g := (GV (TMsg m) v).
Notation md := (md_of sc m).
Hypothesis G : forall j, (j <= n)%nat -> good j.
Hypothesis T : wt_msg sc m v.
Hypothesis Ln : (vdepth v <= n)%nat.
Hypothesis Lk : (vdepth v <= k)%nat.
Notation callee := (run_sized dp strict sc call rounds n).
Notation rec := (marshal_msg sc strict k).
Notation run := (mexec sc call callee meth rounds).
Notation ev := (eval sc call).

Lemma sub_fst cal st : (do r <- sub_call cal st; Ok (fst r))
  = (do r <- sub_call cal st; let (st, size) := r in if false then encodeVarint size st else Ok st).
Proof. destruct (sub_call cal st) as [[s z]| | |]; reflexivity. Qed.

(** A call of the method of a wrapper. *)
Lemma forward_run K num e f kd x buf i : inv K -> 0 <= i <= zlen buf -> zlen buf < imax ->
  In f (md_fields md) -> f_ty f = TField LOneof kd -> wt_elem sc kd x -> (S (vdepth x) < vdepth v)%nat ->
  ev (K i) e = Some (GV (TWrap m (f_num f)) (VOneof (f_num f) x)) ->
  sim locals K buf i (do r <- sub_call (marshal_wrapper sc rec f x) (buf, i); Ok (fst r))
    (run num (mblock (g_forward strict e)) (K i) buf).
Proof.
  intros I Hi Hb Hf Ef Tx L He. rewrite sub_fst.
  change (g_forward strict e) with (MCall "size" e meth "i" :: g_size false).
  apply (call_run callee K num e _ (marshal_wrapper sc rec f x) false buf i I Hi Hb He). intros pre Hp.
  assert (exists n', n = S n') as [n' En] by (destruct n; [lia|eauto]).
  rewrite En. apply (wrapper_run n' k m f kd x); auto; try lia. apply G. lia.
Qed.

Lemma sel_oneof f : In f (md_fields md) -> is_oneof f = true ->
  (slot slots (f_slot f) = VNil /\ select sc g (MSlot (f_slot f)) = Some (GV TNone VNil))
  \/ exists h kd x, slot slots (f_slot f) = VOneof (f_num h) x /\ In h (md_fields md) /\ f_slot h = f_slot f
     /\ f_ty h = TField LOneof kd /\ wt_elem sc kd x /\ (S (vdepth x) < vdepth v)%nat
     /\ select sc g (MSlot (f_slot f)) = Some (GV (TWrap m (f_num h)) (VOneof (f_num h) x)).
Proof.
  intros Hf Of. rewrite (select_oneof sc W m f slots unk hid Hf Of).
  inversion T as [? ? ? ? _ Tf _]; subst. pose proof (Tf f Hf) as Tv. apply wt_field_inv in Tv.
  unfold is_oneof in Of. destruct (f_ty f) as [[| | | |] kd|] eqn:Ef; try discriminate Of.
  pose proof (vdepth_slot slots unk hid (f_slot f)) as Ds.
  destruct Tv as [Ev|(h & kd' & x & Ev & Hh & Hs & Eh & Tx)]; rewrite Ev in *.
  - left. auto.
  - right. exists h, kd', x. repeat split; auto.
Qed.

Lemma oneof_run K num s buf i : inv K -> (forall j, lookup "m" (K j) = Some g) -> 0 <= i <= zlen buf -> zlen buf < imax ->
  (exists f, In f (md_fields md) /\ is_oneof f = true /\ f_slot f = s) ->
  sim none K buf i (marshal_oneof sc rec md (slot slots s) (buf, i)) (run num (g_oneof dp strict m md s) (K i) buf).
Proof.
  intros I Hm Hi Hb (f & Hf & Of & <-). unfold g_oneof.
  destruct (sel_oneof f Hf Of) as [[-> Sel]|(h & kd & x & -> & Hh & Hs & Eh & Tx & Lx & Sel)]; cbn [marshal_oneof].
  - destruct (is_known (dp m)); cbn [mexec eval]; rewrite Hm, Sel.
    + exact (sim_skip callee K num buf i ltac:(lia)).
    + cbn [has_helpers]. apply (sim_leave2 any K [("ok", GBool false); ("vtmsg", GNil)]); [exact I|].
      cbn. repeat split; try lia. exists []. split; [exact Logic.I|reflexivity].
  - rewrite (find_member sc W m h Hh).
    destruct (is_known (dp m)); cbn [mexec eval]; rewrite Hm, Sel.
    + apply (sim_leave2 locals K [("c", GV (TWrap m (f_num h)) (VOneof (f_num h) x))]); [exact I|].
      set (K' := fun j => [("c", GV (TWrap m (f_num h)) (VOneof (f_num h) x))] ++ K j).
      change (("c", GV (TWrap m (f_num h)) (VOneof (f_num h) x)) :: K i) with (K' i).
      assert (inv K') as I' by now apply inv_cons.
      assert (In h (filter (fun q => Nat.eqb (f_slot q) (f_slot f) && is_oneof q) (md_fields md))) as Hin.
      { apply filter_In. split; [exact Hh|]. rewrite Hs, Nat.eqb_refl. unfold is_oneof. now rewrite Eh. }
      revert Hin. generalize (filter (fun q => Nat.eqb (f_slot q) (f_slot f) && is_oneof q) (md_fields md)).
      intros cs. induction cs as [|q cs IHc]; [intros []|]. intros Hin. cbn [g_cases mexec].
      destruct (f_num q =? f_num h) eqn:Eq.
      * apply Z.eqb_eq in Eq. rewrite Eq. eapply (forward_run K'); eauto.
        unfold K'. cbn [app eval lookup]. change (String.eqb "c" "c") with true. cbn match. now rewrite Z.eqb_refl.
      * apply IHc. destruct Hin as [->|Hin]; [now rewrite Z.eqb_refl in Eq|exact Hin].
    + cbn [has_helpers].
      apply (sim_leave2 locals K [("ok", GBool true); ("vtmsg", GV (TWrap m (f_num h)) (VOneof (f_num h) x))]); [exact I|].
      set (K' := fun j => [("ok", GBool true); ("vtmsg", GV (TWrap m (f_num h)) (VOneof (f_num h) x))] ++ K j).
      change (("ok", GBool true) :: ("vtmsg", GV (TWrap m (f_num h)) (VOneof (f_num h) x)) :: K i) with (K' i).
      assert (inv K') as I'
        by (apply (inv_cons (fun j => ("vtmsg", GV (TWrap m (f_num h)) (VOneof (f_num h) x)) :: K j)); [reflexivity|]; now apply inv_cons).
      eapply (forward_run K'); eauto.
Qed.

Lemma member_test_run K num f buf i : inv K -> (forall j, lookup "m" (K j) = Some g) -> 0 <= i <= zlen buf -> zlen buf < imax ->
  In f (md_fields md) -> is_oneof f = true ->
  sim none K buf i (marshal_member sc rec f (slot slots (f_slot f)) (buf, i)) (run num (g_member dp strict m f) (K i) buf).
Proof.
  intros I Hm Hi Hb Hf Of. unfold g_member.
  destruct (sel_oneof f Hf Of) as [[-> Sel]|(h & kd & x & -> & Hh & Hs & Eh & Tx & Lx & Sel)]; cbn [marshal_member].
  - destruct (is_known (dp m)); cbn [mexec eval]; rewrite Hm, Sel; exact (sim_skip callee K num buf i ltac:(lia)).
  - set (w := GV (TWrap m (f_num h)) (VOneof (f_num h) x)) in *.
    destruct (is_known (dp m)); cbn [mexec eval]; rewrite Hm, Sel; unfold w at 1; cbn match;
      rewrite (Z.eqb_sym (f_num f)); destruct (f_num h =? f_num f) eqn:En;
      try exact (sim_skip callee K num buf i ltac:(lia)).
    + apply Z.eqb_eq in En. assert (h = f) as -> by now apply (wf_num_inj sc m).
      apply (sim_leave2 any K [("ok", GBool true); ("m", w)]); [exact I|].
      set (K' := fun j => [("ok", GBool true); ("m", w)] ++ K j).
      change (("ok", GBool true) :: ("m", GV (TWrap m (f_num f)) (VOneof (f_num f) x)) :: K i) with (K' i).
      assert (inv K') as I'
        by (apply (inv_cons (fun j => ("m", w) :: K j)); [reflexivity|]; now apply inv_cons).
      eapply (sim_def callee locals K').
      * unfold K'. cbn [app eval lookup]. change (String.eqb "m" "ok") with false. change (String.eqb "m" "m") with true.
        cbn match. unfold w. rewrite Z.eqb_refl. reflexivity.
      * fold w. eapply (forward_run (fun j => ("msg", w) :: K' j)); eauto. now apply inv_cons.
    + apply Z.eqb_eq in En. assert (h = f) as -> by now apply (wf_num_inj sc m).
      apply (sim_leave2 locals K [("ok", GBool true); ("msg", w)]); [exact I|].
      set (K' := fun j => [("ok", GBool true); ("msg", w)] ++ K j).
      change (("ok", GBool true) :: ("msg", GV (TWrap m (f_num f)) (VOneof (f_num f) x)) :: K i) with (K' i).
      assert (inv K') as I'
        by (apply (inv_cons (fun j => ("msg", w) :: K j)); [reflexivity|]; now apply inv_cons).
      eapply (forward_run K'); eauto.
Qed.

Lemma seq_none K num a b buf i r f :
  sim none K buf i r (run num (mblock a) (K i) buf) ->
  (forall buf' i', zlen buf' = zlen buf -> 0 <= i' <= i ->
     sim none K buf' i' (f (buf', i')) (run num (mblock b) (K i') buf')) ->
  sim none K buf i (do x <- r; f x) (run num (mblock (a ++ b)) (K i) buf).
Proof.
  intros H1 H2. apply (sim_seq callee none none none K num a b buf i r f H1).
  - intros Q buf' i' -> L B _. now apply H2.
  - intros Q Q' -> ->. reflexivity.
Qed.
Lemma seq_one K num s b buf i r f :
  sim none K buf i r (run num s (K i) buf) ->
  (forall buf' i', zlen buf' = zlen buf -> 0 <= i' <= i ->
     sim none K buf' i' (f (buf', i')) (run num (mblock b) (K i') buf')) ->
  sim none K buf i (do x <- r; f x) (run num (mblock (s :: b)) (K i) buf).
Proof.
  intros H1 H2. apply (seq_none K num [s] b); [|exact H2]. now rewrite (block_one callee).
Qed.

Lemma unknown_run K num buf i : inv K -> (forall j, lookup "m" (K j) = Some g) -> 0 <= i <= zlen buf -> zlen buf < imax ->
  sim none K buf i (marshal_unknown md unk (buf, i)) (run num (mblock (g_unknown md)) (K i) buf).
Proof.
  intros I Hm Hi Hb. unfold marshal_unknown, g_unknown.
  destruct (md_keep md); [|apply (sim_skip callee K); lia].
  rewrite (block_one callee).
  assert (forall j, ev (K j) (ESel (EVar "m") MUnknown) = Some (GV (TKind KBytes) (VBytes unk))) as He.
  { intros j. cbn [eval]. now rewrite Hm. }
  eapply (sim_if callee none K _ _ _ _ true); [exact I| |].
  - now rewrite (ne_nil (K i) _ (GV (TKind KBytes) (VBytes unk)) false).
  - apply (copy_run callee K num _ _ (GV (TKind KBytes) (VBytes unk))); auto.
    intros j. cbn [eval]. rewrite Hm. reflexivity.
Qed.

Lemma oneofs_run K num l : inv K -> (forall j, lookup "m" (K j) = Some g) ->
  (forall s, In s l -> exists f, In f (md_fields md) /\ is_oneof f = true /\ f_slot f = s) ->
  forall buf i, 0 <= i <= zlen buf -> zlen buf < imax ->
  sim none K buf i (run_all (map (fun s => marshal_oneof sc rec md (slot slots s)) l) (buf, i))
    (run num (mblock (map (g_oneof dp strict m md) l)) (K i) buf).
Proof.
  intros I Hm. induction l as [|s l IH]; intros Hl buf i Hi Hb; [apply (sim_skip callee K); lia|].
  cbn [map run_all]. apply (seq_one K).
  - apply oneof_run; auto. apply Hl. now left.
  - intros buf' i' L B. apply IH; try lia. intros s' Hs. apply Hl. now right.
Qed.

Lemma plain_run K num c f buf i : inv K -> (forall j, lookup "m" (K j) = Some g) -> In f (md_fields md) -> is_oneof f = false ->
  0 <= i <= zlen buf -> zlen buf < imax ->
  sim none K buf i (marshal_field sc rec f (slot slots (f_slot f)) (buf, i))
    (run num (fst (g_field dp strict c f)) (K i) buf).
Proof.
  intros I Hm Hf Of Hi Hb.
  inversion T as [? ? ? ? _ Tf _]; subst.
  apply (field_run callee rec (vdepth v) (good_calls n k (vdepth v) Ln Lk (G n ltac:(lia))) K num g (List.length (sc_msgs sc))); auto.
  - now apply (wf_ty sc m f W).
  - now apply (select_slot sc W).
  - exists md. now apply Tf.
  - apply vdepth_slot.
Qed.

Lemma fields_strict K num l : strict = true -> inv K -> (forall j, lookup "m" (K j) = Some g) ->
  (forall f, In f l -> In f (md_fields md)) -> forall c buf i, 0 <= i <= zlen buf -> zlen buf < imax ->
  sim none K buf i
    (run_all (map (fun f => if is_oneof f then marshal_member sc rec f (slot slots (f_slot f))
                            else marshal_field sc rec f (slot slots (f_slot f))) l) (buf, i))
    (run num (mblock (fst (g_fields dp strict m c l))) (K i) buf).
Proof.
  intros Es I Hm. induction l as [|f l IH]; intros Hl c buf i Hi Hb; [apply (sim_skip callee K); lia|].
  cbn [map run_all g_fields].
  assert (forall {A} (a b : A), (if strict then a else b) = a) as If by (intros; now rewrite Es).
  destruct (is_oneof f) eqn:Of; [rewrite If|]; cbn [fst]; apply (seq_one K).
  - apply member_test_run; auto. apply Hl. now left.
  - intros buf' i' L B. apply IH; try lia. intros q Hq. apply Hl. now right.
  - apply plain_run; auto. apply Hl. now left.
  - intros buf' i' L B. apply IH; try lia. intros q Hq. apply Hl. now right.
Qed.

Lemma fields_plain K num l : strict = false -> inv K -> (forall j, lookup "m" (K j) = Some g) ->
  (forall f, In f l -> In f (md_fields md)) -> forall c buf i, 0 <= i <= zlen buf -> zlen buf < imax ->
  sim none K buf i
    (run_all (map (fun f => marshal_field sc rec f (slot slots (f_slot f))) (filter (fun f => negb (is_oneof f)) l)) (buf, i))
    (run num (mblock (fst (g_fields dp strict m c l))) (K i) buf).
Proof.
  intros Es I Hm. induction l as [|f l IH]; intros Hl c buf i Hi Hb; [apply (sim_skip callee K); lia|].
  cbn [map run_all g_fields filter].
  assert (forall {A} (a b : A), (if strict then a else b) = b) as If by (intros; now rewrite Es).
  destruct (is_oneof f) eqn:Of; [rewrite If|]; cbn [fst negb].
  - apply IH; auto. intros q Hq. apply Hl. now right.
  - cbn [map run_all]. apply (seq_one K).
    + apply plain_run; auto. apply Hl. now left.
    + intros buf' i' L B. apply IH; try lia. intros q Hq. apply Hl. now right.
Qed.

Lemma message_run buf : zlen buf < imax ->
  same (marshal_body sc rec strict m v buf)
    (mmethod sc call callee meth rounds (fst (g_sized dp strict m md)) (zlen buf) g buf) buf.
Proof.
  intros Hb. pose proof (zlen_pos buf) as Z0. unfold mmethod, g_sized, marshal_body. cbn [fst].
  set (fs := rev (sort_fields (md_fields md))).
  assert (forall f, In f fs -> In f (md_fields md)) as Hfs.
  { intros f Hf. unfold fs in Hf. apply in_rev in Hf.
    eapply Permutation.Permutation_in; [|exact Hf]. apply sort_perm. }
  set (rest := g_unknown md ++ (if strict then [] else map (g_oneof dp strict m md) (oneof_slots [] fs))
               ++ fst (g_fields dp strict m 0 fs)).
  replace (g_unknown md ++ (if strict then [] else map (g_oneof dp strict m md) (oneof_slots [] fs))
           ++ fst (g_fields dp strict m 0 fs) ++ [g_end]) with (rest ++ [g_end])
    by (unfold rest; now rewrite <- !app_assoc).
  set (K := top_l (zlen buf) g).
  assert (mexec sc call callee meth rounds 0
    (mblock ([MIf (EEq (EVar "m") ENil) (mblock [MReturn (EInt 0) ENil]) MSkip;
       MDo (SDef "i" (ELen (EVar "dAtA"))); MDo (SBlank "i"); MDo (SVar "l"); MDo (SBlank "l")] ++ rest ++ [g_end]))
    [("dAtA", GBuf (zlen buf)); ("m", g)] buf = run 0 (mblock (rest ++ [g_end])) (K (zlen buf)) buf) as ->.
  { cbn [app mblock mexec]. rewrite (eq_nil [("dAtA", GBuf (zlen buf)); ("m", g)] (EVar "m") g false eq_refl eq_refl).
    reflexivity. }
  assert (sim none K buf (zlen buf)
    (do st <- marshal_unknown md unk (buf, zlen buf);
     if strict then
       run_all (map (fun f => if is_oneof f then marshal_member sc rec f (slot slots (f_slot f))
                              else marshal_field sc rec f (slot slots (f_slot f))) fs) st
     else
       do st <- run_all (map (fun s => marshal_oneof sc rec md (slot slots s)) (oneof_slots [] fs)) st;
       run_all (map (fun f => marshal_field sc rec f (slot slots (f_slot f))) (filter (fun f => negb (is_oneof f)) fs)) st)
    (run 0 (mblock rest) (K (zlen buf)) buf)) as R.
  { unfold rest. apply (seq_none K).
    - apply unknown_run; auto; [apply inv_top_l|lia].
    - intros b1 i1 L1 B1. destruct (bool_dec strict true) as [Es|Es].
      + assert (forall {A} (a b : A), (if strict then a else b) = a) as If by (intros; now rewrite Es).
        rewrite !If. cbn [app]. apply fields_strict; auto; [apply inv_top_l|lia|lia].
      + apply not_true_is_false in Es.
        assert (forall {A} (a b : A), (if strict then a else b) = b) as If by (intros; now rewrite Es).
        rewrite !If. apply (seq_none K).
        * apply oneofs_run; auto; [apply inv_top_l| |lia|lia].
          intros s Hs. apply oneof_slots_in in Hs as (_ & f & Hf & Of & E). eauto.
        * intros b2 i2 L2 B2. apply fields_plain; auto; [apply inv_top_l|lia|lia]. }
  rewrite (block_app callee).
  match type of R with sim _ _ _ _ ?r _ => set (res := r) in * end.
  match goal with |- same ?r _ _ => replace r with (do st <- res; Ok (fst st, zlen buf - snd st)) end.
  2:{ unfold res. destruct (marshal_unknown md unk (buf, zlen buf)); reflexivity. }
  destruct res as [[b i]|e []| |]; cbn [rbind same fst snd]; try exact Logic.I.
  - destruct R as (A & B2 & Q & -> & ->). cbn [fst snd app]. split; [|lia].
    rewrite (block_one callee).
    pose proof (end_run callee 0 [] (K i) b i (zlen buf) locals_nil eq_refl eq_refl B2 Hb) as E.
    cbn [app] in E. now rewrite E.
  - destruct R as (b & g0 & ->). now destruct g0.
Qed.
End Message.

Lemma all_good n : forall j, (j <= n)%nat -> good j.
Proof.
  induction n as [|n IH]; intros j Hj m v k buf T F L1 L2 Hb; [lia|].
  destruct (Nat.eq_dec j (S n)) as [->|Hne]; [|apply (IH j); auto; lia].
  destruct k as [|k]; [lia|]. cbn [run_sized marshal_msg]. rewrite F.
  destruct T as [->|T].
  - cbn [marshal_body same]. pose proof (zlen_pos buf). split; [|lia].
    unfold mmethod, g_sized. cbn [fst app mblock mexec].
    rewrite (eq_nil [("dAtA", GBuf (zlen buf)); ("m", GV (TMsg m) VNil)] (EVar "m") (GV (TMsg m) VNil) true eq_refl eq_refl).
    reflexivity.
  - inversion T as [? slots unk hid _ _ _]; subst. apply message_run; auto; lia.
Qed.
End Run.
