(** The methods printed for UnmarshalVT and UnmarshalVTUnsafe: fields, the default case, the loop
    and the checks after it. *)
From Coq Require Import ZArith List Bool String Lia.
From Verif Require Import Base BaseFacts Schema Value Helpers Unmarshal WireSpec Typing RecordSpec VarintFacts TargetFacts
  LoopFacts OrderFacts MsgSpec MarshalFacts RunRel Unsafe Pool GoSyntax GenSize GoUnmarshal GenUnmarshal GenUnmarshalFacts.
Import ListNotations.
Open Scope string_scope.
Open Scope Z_scope.
Open Scope list_scope.

(** ** Messages keep their room *)
Section Room.
Variable sc : schema.
Variable self : nat.
Variable data : list Z.
Hypothesis W : wf_schema sc = true.
Notation md := (md_of sc self).
Hypothesis F0 : md_foreign md = false.

Lemma room_inv v : room sc self v -> exists s u h, v = VMsg s u h /\ List.length s = md_nslots md /\
    (forall f lbl k m' x, In f (md_fields md) -> f_ty f = TField lbl k -> sub_of k = Some m' ->
       In x (inner lbl (f_num f) (slot s (f_slot f))) -> room sc m' x) /\
    (forall f p k m' x, In f (md_fields md) -> f_ty f = TField (LRepeated p) k -> sub_of k = Some m' ->
       In x (nth (f_slot f) h []) -> x <> VNil -> room sc m' x).
Proof. intros R. inversion R; subst; [congruence|]. exists s, u, h. auto. Qed.

Lemma room_set s u h f x : room sc self (VMsg s u h) -> In f (md_fields md) ->
  (forall lbl k m' y, f_ty f = TField lbl k -> sub_of k = Some m' -> In y (inner lbl (f_num f) x) -> room sc m' y) ->
  (is_oneof f = true -> x = VNil \/ exists y, x = VOneof (f_num f) y) ->
  room sc self (VMsg (list_set s (f_slot f) x) u h).
Proof.
  intros R Hf Hx Ho. apply room_inv in R as (s0 & u0 & h0 & E & Ls & R1 & R2). injection E as <- <- <-.
  apply room_msg; [now rewrite list_set_length| |exact R2].
  intros g lbl k m' y Hg Tg Sk Hy. destruct (Nat.eq_dec (f_slot f) (f_slot g)) as [Es|Es].
  2:{ rewrite slot_set_neq in Hy by assumption. eauto. }
  pose proof (wf_slot sc self f W Hf). rewrite <- Es, slot_set_eq in Hy by lia.
  assert (forall x y : fdesc, {x = y} + {x <> y}) as D by (repeat decide equality).
  destruct (D f g) as [<-|Ne]; [eauto|].
  destruct (wf_compat sc self f g W Hf Hg Ne) as [Nn C]. destruct (C Es) as [C1 C2].
  destruct (Ho C1) as [-> |(z & ->)].
  - unfold is_oneof in C2. rewrite Tg in C2. destruct lbl; try discriminate. destruct Hy.
  - unfold is_oneof in C2. rewrite Tg in C2. destruct lbl; try discriminate. cbn [inner] in Hy.
    destruct (Z.eqb_spec (f_num f) (f_num g)); [congruence|]. destruct Hy.
Qed.

Lemma room_unk v raw v' : room sc self v -> add_unknown v raw = Some v' -> room sc self v'.
Proof.
  intros R E. apply room_inv in R as (s & u & h & -> & Ls & R1 & R2). cbn in E. injection E as <-. now apply room_msg.
Qed.

Lemma room_stored s u h f lbl k x : room sc self (VMsg s u h) -> In f (md_fields md) -> f_ty f = TField lbl k -> sub_of k = None ->
  room sc self (stored f s u h lbl k x).
Proof.
  intros R Hf Tf Sk. unfold stored. apply room_set; auto.
  - intros l k' m' y T' S'. rewrite Tf in T'. injection T' as <- <-. congruence.
  - unfold is_oneof. rewrite Tf. destruct lbl; try discriminate. eauto.
Qed.

Variables (rec : Z -> nat -> list Z -> val -> res val val) (env : uenv).
Hypothesis Hroom : forall i m, md_pool (md_of sc m) = true -> room sc m (ue_alloc env i m).
Hypothesis Hnew : forall m, room sc m (new_msg (md_of sc m)).
Hypothesis Hrec : forall i m buf x y, md_foreign (md_of sc m) = false -> bytes_ok buf = true -> zlen buf <= zlen data -> room sc m x -> rec i m buf x = Ok y -> room sc m y.
Hypothesis Hext : forall raw v, up_ext (sc_up sc) self raw = Some v -> room sc self v.
Hypothesis Bd : bytes_ok data = true.

Lemma decode_room i m buf x y : bytes_ok buf = true -> zlen buf <= zlen data -> room sc m x -> decodeMessage sc rec i m buf x = Ok y -> room sc m y.
Proof.
  intros Bb Lb R E. unfold decodeMessage in E. destruct (md_foreign (md_of sc m)) eqn:Fm; [now apply room_foreign|]. eauto.
Qed.

Lemma group_never fuel f m wire st : Z.land wire 7 <> 4 -> forall i v r, group_loop sc rec fuel f m wire data st i v <> Ok r.
Proof.
  intros Nw. induction fuel as [|fuel IH]; intros i v r E; [discriminate|]. cbn [group_loop] in E.
  destruct (decodeVarint u64 0 data i) as [[z j]|e []| |]; cbn [lift rbind] in E; try discriminate.
  destruct (Z.eqb_spec (Z.land wire 7) 4); [lia|].
  destruct (zslice data j (zlen data)) as [rest|]; [|discriminate]. cbn [orpanic rbind] in E.
  destruct (Skip rest) as [k|e []| |]; cbn [lift rbind] in E; try discriminate.
  destruct ((k <? 0) || (s64 (j + k) <? 0)); [discriminate|]. eapply IH, E.
Qed.

Lemma num_stored f lbl k wire i s u h v' j : is_num k = true -> fieldItem sc rec env md f lbl k wire data i (VMsg s u h) = Ok (v', j) ->
  exists z, v' = stored f s u h lbl k (VInt z).
Proof.
  intros N H. pose proof (num_ends sc data f s u h rec env md lbl k wire i) as Q.
  destruct (decodeNumber k 0 data i) as [[z q]|e []| |] eqn:D.
  - specialize (Q UStuck (fun _ _ => True) N Logic.I). rewrite H in Q. destruct Q as (w & E & _). eauto.
  - specialize (Q (URetn (Some e) VNil) (fun _ _ => False) N). cbn [ends] in Q. rewrite H in Q. destruct Q as (w & _ & [] & _). eauto.
  - specialize (Q UStuck (fun _ _ => False) N). cbn [ends] in Q. rewrite H in Q. destruct Q as (w & _ & [] & _). exact Logic.I.
  - specialize (Q UStuck (fun _ _ => False) N). cbn [ends] in Q. rewrite H in Q. destruct Q as (w & _ & [] & _). exact Logic.I.
Qed.

Ltac inv_bind E := match type of E with rbind ?r _ = Ok _ => let D := fresh "D" in destruct r eqn:D; cbn [rbind] in E; try discriminate end.

Lemma nest_ok r put v' : nest r put = Ok v' -> exists x, r = Ok x /\ put x = Some v'.
Proof. destruct r; cbn; try discriminate; destruct (put _) eqn:E; try discriminate. intros [= <-]. eauto. Qed.

Lemma message_room f lbl m i s u h v' j : room sc self (VMsg s u h) -> In f (md_fields md) -> f_ty f = TField lbl (KMessage m) ->
  message_item sc rec env md f lbl m data i (VMsg s u h) = Ok (v', j) -> room sc self v'.
Proof.
  intros R Hf Tf E. unfold message_item in E. inv_bind E. destruct a as [i1 post]. inv_bind E. rename a into buf.
  assert (zslice data i1 post = Some buf) as Zs by (destruct (zslice data i1 post); cbn in D0; congruence).
  apply bytes_ok_slice in Zs as (Bb & Lb & B1 & B2); [|assumption].
  assert (zlen buf <= zlen data) as Lb' by lia. clear Lb.
  set (fresh := if md_pool md && md_pool (md_of sc m) then ue_alloc env i1 m else new_msg (md_of sc m)) in *.
  assert (room sc m fresh) as Rf by (unfold fresh; destruct (_ && _) eqn:Pm; [apply Hroom; now apply andb_true_iff in Pm|apply Hnew]).
  pose proof R as R'. apply room_inv in R' as (s0 & u0 & h0 & Q & Ls & R1 & R2). injection Q as <- <- <-.
  pose proof (wf_fld sc self f W Hf) as Wf. unfold wf_field in Wf. rewrite Tf in Wf. cbn [wf_type sub_of] in Wf.
  cbv zeta in E. inv_bind E. injection E as -> <-.
  assert (lbl = LOptional \/ lbl = LRequired -> nest (decodeMessage sc rec i1 m buf (match slot s (f_slot f) with VNil => fresh | _ => slot s (f_slot f) end)) (fun x' => set_slot (VMsg s u h) (f_slot f) x') = Ok v' -> room sc self v') as Sing.
  { clear D1. intros Hl D1. apply nest_ok in D1 as (x & Dx & Px). cbn in Px. injection Px as <-.
    apply decode_room in Dx; [|assumption|assumption|].
    - apply room_set; auto.
      + intros l k' m' y T' S' Hy. rewrite Tf in T'. injection T' as <- <-. cbn in S'. injection S' as <-.
        destruct Hl as [-> | ->]; cbn [inner] in Hy; destruct x; first [destruct Hy as [<-|[]]; assumption|destruct Hy].
      + unfold is_oneof. rewrite Tf. destruct Hl as [-> | ->]; discriminate.
    - specialize (R1 f lbl (KMessage m) m). destruct (slot s (f_slot f)) eqn:So; [assumption|..]; apply R1; auto; destruct Hl as [-> | ->]; left; reflexivity. }
  destruct lbl.
  - rewrite !andb_true_iff in Wf. destruct Wf as (_ & _ & Wf). discriminate.
  - apply Sing; auto.
  - apply Sing; auto.
  - clear Sing. destruct (list_grow sc md m h (f_slot f)) as [tg h'] eqn:Gr. apply nest_ok in D1 as (x & Dx & Px). injection Px as <-.
    assert (forall g, nth g h' [] = nth g h [] \/ g = f_slot f /\ exists y, nth g h [] = y :: nth g h' []) as Hh.
    { unfold list_grow in Gr. destruct (md_pool md); [|injection Gr as <- <-; auto]. destruct (nth (f_slot f) h []) as [|y rest] eqn:En; [injection Gr as <- <-; auto|].
      injection Gr as <- <-. intros g. destruct (Nat.eq_dec g (f_slot f)) as [->|Ng].
      - right. split; [reflexivity|]. exists y. rewrite En, nth_list_set_eq; [reflexivity|]. destruct (le_lt_dec (List.length h) (f_slot f)); [rewrite nth_overflow in En by assumption; discriminate|assumption].
      - left. rewrite nth_list_set_neq by auto. reflexivity. }
    apply room_msg.
    + now rewrite list_set_length.
    + intros g l k' m' y Hg Tg Sk Hy.
      assert (room sc self (VMsg (list_set s (f_slot f) (VList (vlist (slot s (f_slot f)) ++ [x]))) u h)) as Q.
      { apply room_set; auto.
        - intros l0 k0 m0 y0 T0 S0 H0. rewrite Tf in T0. injection T0 as <- <-. destruct H0.
        - unfold is_oneof. rewrite Tf. discriminate. }
      apply room_inv in Q as (s0 & u0 & h0 & Q & _ & Q1 & _). injection Q as <- <- <-. eauto.
    + intros g q k' m' y Hg Tg Sk Hy Ny. apply (R2 g q k' m' y); auto. destruct (Hh (f_slot g)) as [<-|(_ & z & ->)]; [assumption|now right].
  - clear Sing. set (keep := match slot s (f_slot f) with VOneof n x => if n =? f_num f then Some x else None | _ => None end) in *.
    assert (exists x, v' = VMsg (list_set s (f_slot f) (VOneof (f_num f) x)) u h /\ room sc m x) as (x & -> & Rx).
    { destruct keep as [x|] eqn:Ek.
      - apply nest_ok in D1 as (y & Dy & Py). cbn in Py. injection Py as <-. exists y. split; [reflexivity|]. apply decode_room in Dy; auto.
        apply (R1 f LOneof (KMessage m) m); auto. unfold keep in Ek. destruct (slot s (f_slot f)); try discriminate. cbn [inner]. destruct (num =? f_num f); [|discriminate]. injection Ek as <-. now left.
      - inv_bind D1. cbn in D1. injection D1 as <-. eexists. split; [reflexivity|].
        destruct (decodeMessage sc rec i1 m buf fresh) eqn:Dm; cbn in D2; try discriminate. injection D2 as <-. eapply decode_room, Dm; auto. }
    apply room_set; auto.
    + intros l k' m' y T' S' Hy. rewrite Tf in T'. injection T' as <- <-. cbn in S'. injection S' as <-. cbn [inner] in Hy. rewrite Z.eqb_refl in Hy. destruct Hy as [<-|[]]. assumption.
    + eauto.
Qed.

Lemma item_room f lbl k wire i s u h v' j : room sc self (VMsg s u h) -> In f (md_fields md) -> f_ty f = TField lbl k -> Z.land wire 7 <> 4 ->
  fieldItem sc rec env md f lbl k wire data i (VMsg s u h) = Ok (v', j) -> room sc self v'.
Proof.
  intros R Hf Tf Nw E.
  destruct (is_num k) eqn:N.
  { assert (sub_of k = None) as Sk by (destruct k; try discriminate; reflexivity).
    apply num_stored in E as (z & ->); [now apply room_stored|assumption]. }
  unfold fieldItem in E. destruct k; try discriminate; cbn [classify] in E.
  - do 3 (inv_bind E; try destruct a as [i1 post]). injection E as <- <-. rewrite store_stored in D1. injection D1 as <-. now apply room_stored.
  - apply group_never in E; [destruct E|assumption].
  - eapply message_room; eauto.
  - do 3 (inv_bind E; try destruct a as [i1 post]). injection E as <- <-. rewrite store_stored in D1. injection D1 as <-. now apply room_stored.
Qed.

Lemma packed_room f lbl k wire post : In f (md_fields md) -> f_ty f = TField lbl k -> Z.land wire 7 <> 4 ->
  forall fuel i v v' j, room sc self v -> packed_loop sc rec env fuel md f lbl k wire data i post v = Ok (v', j) -> room sc self v'.
Proof.
  intros Hf Tf Nw. induction fuel as [|fuel IH]; intros i v v' j R E; [discriminate|]. cbn [packed_loop] in E.
  destruct (i <? post); [|now injection E as <- <-]. inv_bind E. destruct a as [v1 j1]. eapply IH; [|exact E]. cbn [fst snd].
  pose proof R as R'. apply room_inv in R' as (s & u & h & -> & _). eapply item_room; eauto.
Qed.

Lemma map_room f kk vk i s u h v' j : room sc self (VMsg s u h) -> In f (md_fields md) -> f_ty f = TMap kk vk ->
  map_item sc rec env f kk vk data i (VMsg s u h) = Ok (v', j) -> room sc self v'.
Proof.
  intros R Hf Tf E. unfold map_item in E. inv_bind E. destruct a as [i1 post]. cbn [get_slot set_slot orpanic rbind] in E.
  inv_bind E. destruct a as [[key value] q]. injection E as <- _. rewrite list_set_twice. apply room_set; auto.
  - intros l k' m' y T'. congruence.
  - unfold is_oneof. rewrite Tf. discriminate.
Qed.

Lemma field_room f wire i v v' j : room sc self v -> In f (md_fields md) -> Z.land wire 7 <> 4 ->
  um_field sc rec env md f wire data i v = Ok (v', j) -> room sc self v'.
Proof.
  intros R Hf Nw E. pose proof R as R'. apply room_inv in R' as (s & u & h & -> & _). unfold um_field in E. destruct (f_ty f) as [lbl k|kk vk] eqn:Tf.
  - destruct (packable lbl k); (destruct (Z.land wire 7 =? ProtoWireType k); [eapply item_room; eauto|]); [|discriminate].
    destruct (Z.land wire 7 =? 2); [|discriminate]. inv_bind E. destruct a as [i1 post]. eapply packed_room; eauto.
  - destruct (Z.land wire 7 =? 2); [|discriminate]. eapply map_room; eauto.
Qed.

Lemma unknown_room num i v v' j : room sc self v -> um_unknown sc self num data i v = Ok (v', j) -> room sc self v'.
Proof.
  intros R E. unfold um_unknown in E. inv_bind E. inv_bind E. destruct (_ || _); [discriminate|]. destruct (zlen data <? _); [discriminate|].
  inv_bind E. destruct (in_ext md num).
  - destruct v; try discriminate. destruct (up_ext (sc_up sc) self _) eqn:Eu; [|discriminate]. injection E as <- _. eauto.
  - destruct (md_keep md).
    + inv_bind E. injection E as <- _. destruct (add_unknown v _) eqn:Ea; [|discriminate]. injection D2 as <-. eapply room_unk; eauto.
    + now injection E as <- _.
Qed.

Lemma step_room i v has v' j has' : room sc self v -> um_step sc rec env self data i v has = Ok (v', j, has') ->
  room sc self v' /\ List.length has' = List.length has.
Proof.
  intros R E. unfold um_step in E. inv_bind E. destruct a as [wire i1]. cbv zeta in E.
  destruct (Z.eqb_spec (Z.land wire 7) 4); [discriminate|]. destruct (_ <=? 0); [discriminate|].
  destruct (find_field _ _) as [f|] eqn:Ff.
  - apply find_field_some in Ff as [Hf _]. inv_bind E. destruct a as [v1 j1]. injection E as <- <- <-. split; [eapply field_room; eauto|apply has_set_length].
  - inv_bind E. destruct a as [v1 j1]. injection E as <- <- <-. split; [eapply unknown_room; eauto|reflexivity].
Qed.

Lemma body_room v v' : room sc self v -> um_body sc rec env self data v = Ok v' -> room sc self v'.
Proof.
  intros R E. unfold um_body in E. inv_bind E. destruct a as [[v1 i1] has]. destruct (negb _); [discriminate|]. destruct (_ <? _); [discriminate|]. injection E as <-.
  revert R D. generalize (has_init md) as h0. generalize 0 as i0. generalize (S (List.length data)) as fuel. intros fuel. revert v.
  induction fuel as [|fuel IH]; intros v i0 h0 R E; [discriminate|]. cbn [um_loop] in E.
  destruct (i0 <? zlen data); [|now injection E as <- _ _]. inv_bind E. destruct a as [[v2 i2] h2]. apply step_room in D as [D _]; [|assumption]. eapply IH; eauto.
Qed.
End Room.

(** ** The method *)
Section Method.
Variable sc : schema.
Variable self : nat.
Variable data : list Z.
Variable base : Z.
Variable alloc : Z -> nat -> val.
Variable spare : Z -> nat -> Z.
Variable callee : Z -> nat -> list Z -> val -> res val val.
Variable rounds : nat.
Hypothesis Bd : bytes_ok data = true.
Hypothesis Sm : small data.
Hypothesis R11 : (11 <= rounds)%nat.
Hypothesis Rlen : (S (List.length data) <= rounds)%nat.
Hypothesis W : wf_schema sc = true.
Notation md := (md_of sc self).
Hypothesis F0 : md_foreign md = false.
Variables (rec : Z -> nat -> list Z -> val -> res val val) (env : uenv).
Variables (dp : nat -> dispatch) (pool : nat -> bool) (unique : Z -> bool) (unsafe : bool).
Hypothesis Hstr : forall i s, ue_str env i s = if unsafe then match s with [] => VStr [] | _ => VRefS (base + i) s end else VStr s.
Hypothesis Hbytes : forall i s, ue_bytes env i s = if unsafe then VRefB (base + i) s else VBytes s.
Hypothesis Hdp : forall m, dp m <> DOther -> md_foreign (md_of sc m) = false.
Hypothesis Hpool : forall m, pool m = md_pool (md_of sc m).
Hypothesis Halloc : forall i m, ue_alloc env i m = alloc i m.
Hypothesis Hroom : forall i m, md_pool (md_of sc m) = true -> room sc m (alloc i m).
Hypothesis Hnew : forall m, room sc m (new_msg (md_of sc m)).
Hypothesis Hcall : forall i m buf x, md_foreign (md_of sc m) = false -> bytes_ok buf = true -> zlen buf <= zlen data -> room sc m x ->
  match rec i m buf x with
  | Ok y => callee i m buf x = Ok y
  | Err e _ => exists y, callee i m buf x = Err e y
  | _ => True
  end.
Hypothesis Hrec : forall i m buf x y, md_foreign (md_of sc m) = false -> bytes_ok buf = true -> zlen buf <= zlen data -> room sc m x -> rec i m buf x = Ok y -> room sc m y.
Hypothesis Hext : forall raw v, up_ext (sc_up sc) self raw = Some v -> room sc self v.

Notation ex := (uexec sc self data base alloc spare callee rounds).
Notation evl := (ev sc data base alloc spare).
Notation L := (zlen data).
Notation kinv := (kinv data).

Lemma kpush K x u : kinv K -> avoids x = true -> kinv (fun i => (x, u) :: K i).
Proof. exact (GenUnmarshalFacts.kpush self data base alloc spare callee K x u). Qed.
Lemma kapp K T : kinv K -> forallb (fun q => avoids (fst q)) T = true -> kinv (fun i => T ++ K i).
Proof.
  intros HK. induction T as [|[x v] T IH]; [auto|]. cbn [forallb fst app]. rewrite andb_true_iff. intros [A B]. apply kpush; auto.
Qed.
Lemma var_app T E x : forallb (fun q => negb (String.eqb x (fst q))) T = true -> var (T ++ E) x = var E x.
Proof.
  induction T as [|[y v] T IH]; [auto|]. cbn [forallb fst app]. rewrite andb_true_iff, negb_true_iff. intros [A B]. rewrite var_cons by assumption. auto.
Qed.

Lemma ex_if2 n c a b E v z : evl E v c = Some (zb z) -> ex n (UIf c a b) E v = uleave E (if z then ex n a E v else ex n b E v).
Proof. intros H. rewrite (ex_if _ _ _ _ _ _ _ _ _ _ _ _ _ _ _ H). destruct z; reflexivity. Qed.

Lemma field_sim K f n wire i s u h : kinv K -> In f (md_fields md) -> room sc self (VMsg s u h) ->
  (forall j, var (K j) "wire" = Some (VInt wire)) -> (forall j, var (K j) "wireType" = Some (VInt (Z.land wire 7))) -> Z.land wire 7 <> 4 ->
  ends (um_field sc rec env md f wire data i (VMsg s u h))
    (ex n (ublock (u_field dp pool unique unsafe (md_pool md) f)) (K i) (VMsg s u h)) (falls K).
Proof.
  intros HK Hf R Vw Vt Nw.
  pose proof R as R'. apply room_inv in R' as (s0 & u0 & h0 & Q & Ls & R1 & R2); [|assumption]. injection Q as <- <- <-.
  assert (f_slot f < List.length s)%nat as Hs by (pose proof (wf_slot sc self f W Hf); lia).
  pose proof (wf_fld sc self f W Hf) as Wf. unfold wf_field in Wf. rewrite andb_true_iff in Wf. destruct Wf as [_ Wf].
  assert (forall c, evl (K i) (VMsg s u h) (XEq (XVar "wireType") (num c)) = Some (zb (Z.land wire 7 =? c))) as Ee by (intros c; cbn [ev num]; rewrite Vt; reflexivity).
  assert (forall c, evl (K i) (VMsg s u h) (XNe (XVar "wireType") (num c)) = Some (zb (negb (Z.land wire 7 =? c)))) as En by (intros c; cbn [ev num]; rewrite Vt; reflexivity).
  unfold um_field, u_field. destruct (f_ty f) as [lbl k|kk vk] eqn:Tf.
  - assert (forall n, ends (fieldItem sc rec env md f lbl k wire data i (VMsg s u h)) (ex n (ublock (u_item dp pool unique unsafe (md_pool md) f lbl k)) (K i) (VMsg s u h)) (falls K)) as It.
    { intros n0. eapply item_sim; eauto. intros m ->. cbn [wf_type sub_of] in Wf. rewrite andb_true_iff in Wf. repeat split.
      - destruct Wf as [_ Wf]. intros ->. discriminate.
      - intros x Hx. eapply R1; eauto.
      - intros q x -> Hx Nx. eapply R2; eauto. }
    destruct (packable lbl k) eqn:Pk.
    + rewrite ex_cons. rewrite (ex_if2 _ _ _ _ _ _ _ (Ee (ProtoWireType k))).
      destruct (Z.land wire 7 =? ProtoWireType k).
      * specialize (It n). destruct (fieldItem _ _ _ _ _ _ _ _ _ _ _) as [[v' j]| | |]; cbn [ends] in It |- *; auto.
        -- destruct It as (T & _ & ->). cbn [fst snd]. rewrite leave_app by apply (k_len data K HK). cbn [bindo]. rewrite ex_nil. now exists [].
        -- destruct It as (v' & ->). cbn. eauto.
      * rewrite (ex_if2 _ _ _ _ _ _ _ (Ee 2)). destruct (Z.land wire 7 =? 2).
        2:{ unfold wrong. rewrite ex_cons. cbn [uexec uret bindo uleave ends]. eauto. }
        assert (is_num k = true) as N.
        { destruct lbl; try discriminate. cbn [packable] in Pk. cbn [wf_type] in Wf. rewrite !andb_true_iff in Wf. destruct Wf as (_ & _ & Wf). destruct k; try reflexivity; discriminate. }
        destruct lbl as [| | |pk|]; try discriminate.
        match goal with |- ends _ (bindo (uleave _ (uleave _ ?x)) _) _ => set (o := x) end.
        assert (ends (do r <- lift (VMsg s u h) (decodeLen false data i); let (i0, post) := r in packed_loop sc rec env (S (List.length data)) md f (LRepeated pk) k wire data i0 post (VMsg s u h)) o
                  (fun r o => exists T, o = UNext (T ++ K (snd r)) (fst r))) as H.
        2:{ match goal with |- ends ?x _ _ => destruct x as [[v' j]| | |] end; cbn [ends] in H |- *; auto.
            - destruct H as (T & ->). cbn [fst snd]. rewrite leave_app by apply (k_len data K HK). rewrite leave_same by apply (k_len data K HK). cbn [bindo]. rewrite ex_nil. now exists [].
            - destruct H as (v' & ->). cbn. eauto. }
        unfold o. rewrite ex_app. eapply ends_bind.
        { eapply ends_lift. eapply len_int_sim; eauto. }
        intros [i1 post] _ (z & -> & E1 & E2 & E3). cbn [fst snd bindo] in *.
        set (K1 := fun j => ("postIndex", UV (VInt post)) :: ("packedLen", UV (VInt z)) :: K j).
        change (("postIndex", UV (VInt post)) :: ("packedLen", UV (VInt z)) :: K i1) with (K1 i1).
        assert (kinv K1) as HK1 by (unfold K1; apply kpush; [apply kpush; auto|reflexivity]).
        rewrite ex_app.
        destruct (prealloc_sim sc self data base alloc spare callee rounds) with (f := f) (s := s) (u := u) (h := h) (p := md_pool md) (n := n) (k := k) (K1 := K1) (j := i1) (post := post) (z := z) as (T & v1 & Ep & HT & Hv); auto.
        rewrite Ep. cbn [bindo]. rewrite ex_cons. cbn [uexec].
        set (K2 := fun j => T ++ K1 j). change (T ++ K1 i1) with (K2 i1).
        assert (kinv K2) as HK2.
        { unfold K2. apply kapp; [assumption|]. rewrite forallb_forall in *. intros q Hq. specialize (HT q Hq). rewrite !andb_true_iff in HT. tauto. }
        assert (forall j, var (K2 j) "postIndex" = Some (VInt post)) as Vp.
        { intros j. unfold K2. rewrite var_app; [apply var_here|]. rewrite forallb_forall in *. intros q Hq. specialize (HT q Hq). rewrite !andb_true_iff in HT. tauto. }
        assert (forall s1 o1, o1 = uloop rounds (fun E v => truth (evl E v (XLt iNdEx (XVar "postIndex")))) (ex n (ublock (u_item dp pool unique unsafe (md_pool md) f (LRepeated pk) k))) (K2 i1) (VMsg s1 u h) -> (f_slot f < List.length s1)%nat ->
          ends (packed_loop sc rec env (S (List.length data)) md f (LRepeated pk) k wire data i1 post (VMsg s1 u h)) (bindo o1 (ex n (ublock []))) (fun r o => exists T, o = UNext (T ++ K (snd r)) (fst r))) as Loop.
        { intros s1 o1 -> H1. pose proof (packed_sim sc self data base alloc spare callee rounds Bd Sm R11 Rlen rec env md dp pool unique unsafe f (LRepeated pk) k wire post u h K2 HK2 N Vp n (md_pool md) (S (List.length data)) rounds i1 s1 Rlen H1) as H.
          match type of H with ends ?x _ _ => destruct x as [[v' j]| | |] end; cbn [ends] in H |- *; auto.
          - rewrite H. cbn [bindo fst snd]. rewrite ex_nil. exists (T ++ [("postIndex", UV (VInt post)); ("packedLen", UV (VInt z))]). unfold K2, K1. now rewrite <- app_assoc.
          - destruct H as (v' & ->). cbn. eauto. }
        destruct Hv as [->|(-> & Hv & Hj)]; [now apply Loop|].
        eapply first_same; eauto. apply Loop; [reflexivity|]. now rewrite list_set_length.
    + rewrite ex_cons. unfold wrong. rewrite (ex_check _ _ _ _ _ _ _ _ _ _ _ (Some EWireType) _ _ _ (En (ProtoWireType k))) by reflexivity.
      destruct (Z.land wire 7 =? ProtoWireType k); cbn [negb bindo ends]; [apply It|eauto].
  - rewrite ex_cons. unfold wrong. rewrite (ex_check _ _ _ _ _ _ _ _ _ _ _ (Some EWireType) _ _ _ (En 2)) by reflexivity.
    destruct (Z.land wire 7 =? 2); cbn [negb bindo ends]; [|eauto]. eapply map_sim; eauto.
Qed.

(** The variables in the loop. *)
Definition marks (has : list Z) : uenvt := match required_numbers md with [] => [] | _ => [("hasFields", UH has)] end.
Definition K0 (has : list Z) (i : Z) : uenvt := ("iNdEx", UV (VInt i)) :: ("l", UV (VInt L)) :: marks has.
Definition Ks (pre wire : Z) (has : list Z) (i : Z) : uenvt :=
  ("wireType", UV (VInt (Z.land wire 7))) :: ("fieldNum", UV (VInt (s32 (Z.shiftr wire 3)))) :: ("wire", UV (VInt wire)) :: ("preIndex", UV (VInt pre)) :: K0 has i.
Lemma K0_kinv has : kinv (K0 has).
Proof. constructor; reflexivity. Qed.
Lemma Ks_kinv pre wire has : kinv (Ks pre wire has).
Proof. unfold Ks. repeat (apply kpush; [|reflexivity]). apply K0_kinv. Qed.
Lemma K0_len h1 h2 i j : List.length (K0 h1 i) = List.length (K0 h2 j).
Proof. unfold K0, marks. destruct (required_numbers md); reflexivity. Qed.

Lemma ulook_app T E x : forallb (fun q => negb (String.eqb x (fst q))) T = true -> ulook (T ++ E) x = ulook E x.
Proof.
  induction T as [|[y v] T IH]; [auto|]. cbn [forallb fst app ulook]. rewrite andb_true_iff, negb_true_iff. intros [A B]. rewrite A. auto.
Qed.
Lemma uassign_app T E x u E' : forallb (fun q => negb (String.eqb x (fst q))) T = true -> uassign E x u = Some E' -> uassign (T ++ E) x u = Some (T ++ E').
Proof.
  intros HT HE. induction T as [|[y v] T IH]; [auto|]. cbn [forallb fst app uassign] in *. rewrite andb_true_iff, negb_true_iff in HT. destruct HT as [A B]. rewrite A, IH; auto.
Qed.

Lemma mask_u64 b : u64 (Z.shiftl 1 (Z.of_nat (b mod 64))) = Z.shiftl 1 (Z.of_nat (b mod 64)).
Proof.
  rewrite Z.shiftl_1_l. unfold u64. apply Z.mod_small. pose proof (Nat.mod_upper_bound b 64).
  assert (0 <= Z.of_nat (b mod 64) < 64) as B by lia. split; [apply Z.pow_nonneg; lia|]. change 18446744073709551616 with (2 ^ 64). apply Z.pow_lt_mono_r; lia.
Qed.

Lemma marks_some f : In f (md_fields md) -> is_required f = true -> forall has, marks has = [("hasFields", UH has)].
Proof.
  intros Hf Rf has. pose proof (required_in md f Hf Rf) as H. unfold marks. destruct (required_numbers md); [destruct H|reflexivity].
Qed.

Lemma mark_sim pre wire f T n j has v : over T = true -> In f (md_fields md) -> List.length has = List.length (has_init md) ->
  ex n (ublock (u_mark md f)) (T ++ Ks pre wire has j) v = UNext (T ++ Ks pre wire (has_set md f has) j) v.
Proof.
  intros HT Hf Hl. unfold u_mark, has_set. destruct (is_required f) eqn:Rf; [|reflexivity].
  pose proof (has_init_room md f Hf Rf) as Lt. rewrite <- Hl in Lt.
  rewrite ex_cons. cbn [uexec]. rewrite ulook_app by exact HT.
  unfold Ks at 1, K0 at 1. rewrite (marks_some f Hf Rf). cbn [ulook String.eqb Ascii.eqb Bool.eqb].
  set (bit := field_bit (required_numbers md) (f_num f)) in *. rewrite mask_u64.
  set (has' := list_set has (bit / 64) _).
  rewrite (uassign_app T _ _ _ (Ks pre wire has' j)); [|exact HT|].
  2:{ unfold Ks, K0. rewrite !(marks_some f Hf Rf). reflexivity. }
  apply Nat.ltb_lt in Lt. rewrite Lt. cbn [bindo]. apply ex_nil.
Qed.

Lemma cases_sim n l E v : ex n (u_cases dp pool unique unsafe md l) E v
  = match find_field n l with
    | Some f => ex n (ublock (u_field dp pool unique unsafe (md_pool md) f ++ u_mark md f)) E v
    | None => ex n (ublock (u_unknown md)) E v
    end.
Proof.
  unfold find_field. induction l as [|f l IH]; [reflexivity|]. cbn [u_cases uexec find]. rewrite (Z.eqb_sym n (f_num f)).
  destruct (f_num f =? n); [reflexivity|exact IH].
Qed.

Lemma range_ev E v num r : var E "fieldNum" = Some (VInt num) -> evl E v (u_range r) = Some (zb ((fst r <=? num) && (num <? snd r))).
Proof.
  intros H. unfold u_range. cbn [ev GenUnmarshal.num]. rewrite H. cbn [rel]. rewrite Z.geb_leb. unfold zb. destruct (fst r <=? num); reflexivity.
Qed.
Lemma more_ev E v num l : var E "fieldNum" = Some (VInt num) -> forall e b, evl E v e = Some (zb b) ->
  evl E v (u_more e l) = Some (zb (b || existsb (fun r => (fst r <=? num) && (num <? snd r)) l)).
Proof.
  intros H. induction l as [|r l IH]; intros e b He; cbn [u_more existsb]; [now rewrite orb_false_r|].
  rewrite (IH _ (b || ((fst r <=? num) && (num <? snd r)))); [now rewrite orb_assoc|].
  cbn [ev]. rewrite He, (range_ev E v num r H). destruct b; reflexivity.
Qed.
Lemma ranges_ev E v num r l : var E "fieldNum" = Some (VInt num) ->
  evl E v (u_ranges r l) = Some (zb (existsb (fun r => (fst r <=? num) && (num <? snd r)) (r :: l))).
Proof.
  intros H. unfold u_ranges. cbn [existsb]. destruct l as [|r' l]; [cbn [existsb]; rewrite orb_false_r; now apply range_ev|].
  apply more_ev; [assumption|]. cbn [ev]. now apply range_ev.
Qed.

Lemma unknown_sim n pre wire has i v :
  ends (um_unknown sc self (s32 (Z.shiftr wire 3)) data pre v) (ex n (ublock (u_unknown md)) (Ks pre wire has i) v) (falls (Ks pre wire has)).
Proof.
  set (K := Ks pre wire has). set (fnum := s32 (Z.shiftr wire 3)). pose proof (Ks_kinv pre wire has) as HK. fold K in HK.
  assert (um_unknown sc self fnum data pre v =
    do skippy <- (do rest <- orpanic (zslice data pre L); do skippy <- lift v (Skip rest);
                  if (skippy <? 0) || (s64 (pre + skippy) <? 0) then Err EInvalidLength v else
                  match Some "l" with Some _ => if L <? s64 (pre + skippy) then Err EUnexpectedEOF v else Ok skippy | None => Ok skippy end);
    do raw <- orpanic (zslice data pre (s64 (pre + skippy)));
    if in_ext md fnum then
      match v with
      | VMsg _ _ _ => match up_ext (sc_up sc) self raw with Some v' => Ok (v', s64 (pre + skippy)) | None => Err EUpstream v end
      | _ => Panic
      end
    else if md_keep md then do v' <- orpanic (add_unknown v raw); Ok (v', s64 (pre + skippy))
    else Ok (v, s64 (pre + skippy))) as ->.
  { unfold um_unknown. destruct (zslice data pre L) as [rest|]; [|reflexivity]. cbn [orpanic rbind]. destruct (Skip rest) as [k|e []| |]; try reflexivity. cbn [lift rbind].
    destruct (_ || _); [reflexivity|]. destruct (L <? _); reflexivity. }
  unfold u_unknown. rewrite ex_cons. cbn [uexec ev]. unfold var at 1. change (ulook (K i) "preIndex") with (Some (UV (VInt pre))). cbn [uset uwrite]. rewrite (k_assign data K HK). cbn [bindo].
  rewrite ex_app. eapply ends_bind.
  { apply (skip_sim sc self data base alloc spare callee rounds v K (Some "l") L n pre v HK). repeat split. }
  intros k _ ->. cbn [bindo]. set (T := [("err", UE None); ("skippy", UV (VInt k))]). change (("err", UE None) :: ("skippy", UV (VInt k)) :: K pre) with (T ++ K pre).
  assert (forall e v, ex n (ublock [UAdd "iNdEx" (XVar "skippy")]) (("err", e) :: ("skippy", UV (VInt k)) :: K pre) v = UNext ((("err", e) :: ("skippy", UV (VInt k)) :: K (s64 (pre + k)))) v) as Add.
  { intros e v0. rewrite ex_cons. change (("err", e) :: ("skippy", UV (VInt k)) :: K pre) with ([("err", e); ("skippy", UV (VInt k))] ++ K pre). rewrite (add_index sc self data base alloc spare callee rounds K [("err", e); ("skippy", UV (VInt k))] n pre k v0 (XVar "skippy") HK) by reflexivity. apply ex_nil. }
  assert (index (T ++ K pre) = Some pre) as Ix by reflexivity.
  assert (forall (r : res val (val * Z)) l (G : val * Z -> uout -> Prop), (md_keep md = true -> r = do v' <- orpanic (add_unknown v l); Ok (v', s64 (pre + k))) -> (md_keep md = false -> r = Ok (v, s64 (pre + k))) -> zslice data pre (s64 (pre + k)) = Some l ->
     (forall v', G (v', s64 (pre + k)) (UNext (T ++ K (s64 (pre + k))) v')) ->
     ends r (ex n (ublock ((if md_keep md then [UKeep] else []) ++ [UAdd "iNdEx" (XVar "skippy")])) (T ++ K pre) v) G) as Keep.
  { intros r l G H1 H2 Zs HG. destruct (md_keep md).
    - rewrite H1 by reflexivity. cbn [app]. rewrite ex_cons. cbn [uexec]. rewrite Ix. cbn [number]. change (number (var (T ++ K pre) "skippy")) with (Some k). cbn iota beta. rewrite Zs. destruct (add_unknown v l) as [v'|]; [|exact Logic.I]. cbn [bindo orpanic rbind ends]. unfold T. cbn [app]. rewrite Add. apply HG.
    - rewrite H2 by reflexivity. cbn [app ends]. unfold T. cbn [app]. rewrite Add. apply HG. }
  destruct (zslice data pre (s64 (pre + k))) as [raw|] eqn:Zs; [|exact Logic.I]. cbn [orpanic rbind].
  unfold in_ext. destruct (md_ext md) as [|r l].
  { cbn [existsb]. eapply (Keep _ raw); auto; [intros -> |intros -> |]; try reflexivity. intros v'. now exists T. }
  rewrite ex_cons. rewrite (ex_if2 _ _ _ _ _ _ _ (ranges_ev (T ++ K pre) v fnum r l eq_refl)).
  destruct (existsb _ (r :: l)).
  - destruct v; try exact Logic.I. rewrite ex_cons. cbn [uexec]. rewrite Ix. cbn [number]. change (number (var (T ++ K pre) "skippy")) with (Some k). cbn iota beta. rewrite Zs.
    destruct (up_ext (sc_up sc) self raw) as [v'|].
    + change (uassign (T ++ K pre) "err" (UE None)) with (Some (T ++ K pre)). cbn [bindo]. rewrite ex_cons. rewrite (ex_check _ _ _ _ _ _ _ _ _ _ _ None _ _ false) by reflexivity. cbn [bindo]. unfold T at 2. cbn [app]. rewrite Add.
      change (("err", UE None) :: ("skippy", UV (VInt k)) :: K (s64 (pre + k))) with (T ++ K (s64 (pre + k))). rewrite leave_same by (rewrite !app_length; now rewrite (k_len data K HK pre (s64 (pre + k)))).
      cbn [bindo]. rewrite ex_nil. now exists T.
    + change (uassign (T ++ K pre) "err" (UE (Some EUpstream))) with (Some (("err", UE (Some EUpstream)) :: ("skippy", UV (VInt k)) :: K pre)). cbn [bindo]. rewrite ex_cons. rewrite (ex_check _ _ _ _ _ _ _ _ _ _ _ (Some EUpstream) _ _ true) by reflexivity. cbn. eauto.
  - match goal with |- ends ?r (bindo (uleave _ ?o) _) _ => assert (ends r o (fun q w => w = UNext (T ++ K (s64 (pre + k))) (fst q) /\ snd q = s64 (pre + k))) as H end.
    { apply (Keep _ raw); auto; [intros -> |intros -> ]; reflexivity. }
    match type of H with ends ?r _ _ => destruct r as [[v' j]| | |] end; cbn [ends] in H |- *; auto.
    + destruct H as [-> <-]. cbn [fst snd]. rewrite leave_same by (rewrite !app_length; now rewrite (k_len data K HK pre j)). cbn [bindo]. rewrite ex_nil. now exists T.
    + destruct H as (v' & ->). cbn. eauto.
Qed.

Lemma step_sim i v has n : room sc self v -> List.length has = List.length (has_init md) ->
  ends (um_step sc rec env self data i v has) (ex n (u_step dp pool unique unsafe md) (K0 has i) v)
    (fun r o => exists T, o = UNext (T ++ K0 (snd r) (snd (fst r))) (fst (fst r))).
Proof.
  intros R Hl. unfold um_step, u_step. rewrite ex_cons. cbn [uexec ev iNdEx]. rewrite (kvar data (K0 has) i (K0_kinv has)). cbn [bindo].
  rewrite ex_cons. cbn [uexec zero_ty bindo]. rewrite ex_cons. eapply ends_bind.
  { eapply ends_lift.
    assert (kinv (fun j => ("preIndex", UV (VInt i)) :: K0 has j)) as HKp by (apply kpush; [apply K0_kinv|reflexivity]).
    exact (varint_sim sc self data base alloc spare callee rounds Sm R11 Rlen (LVar "wire") YU64 _ n i 0 (lpush self data base alloc spare callee _ "wire" v HKp eq_refl)). }
  intros [wire j] _ ->. cbn [fst snd bindo]. cbv zeta.
  rewrite ex_cons. cbn [uexec ev num]. rewrite var_here. cbn [arith bindo conv]. rewrite ex_cons. cbn [uexec ev]. rewrite var_cons, var_here by reflexivity. cbn [arith bindo conv].
  assert (0 <= Z.land wire 7 < 8) as Wt by (change 7 with (Z.ones 3); rewrite Z.land_ones by lia; apply Z.mod_pos_bound; reflexivity). rewrite (s64_id (Z.land wire 7)) by lia.
  change (("wireType", UV (VInt (Z.land wire 7))) :: ("fieldNum", UV (VInt (s32 (Z.shiftr wire 3)))) :: ("wire", UV (VInt wire)) :: ("preIndex", UV (VInt i)) :: K0 has j) with (Ks i wire has j).
  rewrite ex_cons. rewrite (ex_check _ _ _ _ _ _ _ _ _ _ _ (Some EWireType) _ _ (Z.land wire 7 =? 4)) by reflexivity.
  destruct (Z.eqb_spec (Z.land wire 7) 4) as [|Nw]; [cbn; eauto|]. cbn [bindo].
  rewrite ex_cons. rewrite (ex_check _ _ _ _ _ _ _ _ _ _ _ (Some EIllegalTag) _ _ (s32 (Z.shiftr wire 3) <=? 0)) by reflexivity.
  destruct (s32 (Z.shiftr wire 3) <=? 0); [cbn; eauto|]. cbn [bindo].
  rewrite ex_cons. cbn [uexec]. change (number (var (Ks i wire has j) "fieldNum")) with (Some (s32 (Z.shiftr wire 3))). cbn iota. rewrite cases_sim.
  set (K := Ks i wire has). pose proof (Ks_kinv i wire has) as HK. fold K in HK |- *.
  assert (forall h1 i1 h2 i2, List.length (Ks i wire h1 i1) = List.length (Ks i wire h2 i2)) as Kl.
  { intros. unfold Ks. cbn [List.length]. now rewrite (K0_len h1 h2 i1 i2). }
  set (P := [("wireType", UV (VInt (Z.land wire 7))); ("fieldNum", UV (VInt (s32 (Z.shiftr wire 3)))); ("wire", UV (VInt wire)); ("preIndex", UV (VInt i))]).
  destruct (find_field (s32 (Z.shiftr wire 3)) (md_fields md)) as [f|] eqn:Ff.
  - apply find_field_some in Ff as [Hf _]. rewrite ex_app. pose proof R as R'. apply room_inv in R' as (s & u & h & -> & _); [|assumption].
    pose proof (field_sim K f (s32 (Z.shiftr wire 3)) wire j s u h HK Hf R (fun _ => eq_refl) (fun _ => eq_refl) Nw) as H.
    destruct (um_field sc rec env md f wire data j (VMsg s u h)) as [[v' j']| | |]; cbn [ends rbind fst snd] in *; auto.
    + destruct H as (T & HT & ->). cbn [fst snd bindo]. unfold K. rewrite mark_sim by assumption. rewrite leave_app by apply Kl. cbn [bindo]. rewrite ex_nil. now exists P.
    + destruct H as (v' & ->). cbn. eauto.
  - pose proof (unknown_sim (s32 (Z.shiftr wire 3)) i wire has j v) as H. fold K in H.
    destruct (um_unknown sc self (s32 (Z.shiftr wire 3)) data i v) as [[v' j']| | |]; cbn [ends rbind fst snd] in *; auto.
    + destruct H as (T & HT & ->). cbn [fst snd bindo]. rewrite leave_app by apply Kl. cbn [bindo]. rewrite ex_nil. now exists P.
    + destruct H as (v' & ->). cbn. eauto.
Qed.

Lemma loop_sim n : forall fuel r i v has, (fuel <= r)%nat -> room sc self v -> List.length has = List.length (has_init md) ->
  ends (um_loop sc rec env fuel self data i v has)
    (uloop r (fun E v => truth (evl E v (XLt iNdEx (XVar "l")))) (ex n (u_step dp pool unique unsafe md)) (K0 has i) v)
    (fun r o => o = UNext (K0 (snd r) (snd (fst r))) (fst (fst r)) /\ List.length (snd r) = List.length (has_init md)).
Proof.
  induction fuel as [|fuel IH]; intros r i v has Hr R Hl; [exact Logic.I|]. destruct r as [|r]; [lia|]. cbn [um_loop uloop].
  assert (truth (evl (K0 has i) v (XLt iNdEx (XVar "l"))) = Some (i <? L)) as ->.
  { cbn [ev iNdEx]. rewrite (kvar data (K0 has) i (K0_kinv has)), (kvar_l data (K0 has) i (K0_kinv has)). cbn [rel]. unfold zb. destruct (i <? L); reflexivity. }
  destruct (i <? L); [|now split].
  pose proof (step_sim i v has n R Hl) as H.
  destruct (um_step sc rec env self data i v has) as [[[v' j] has']| | |] eqn:E; cbn [ends rbind fst snd] in *; auto.
  - destruct H as (T & ->). rewrite leave_app by apply K0_len.
    eapply step_room in E as [E1 E2]; eauto; [|intros; rewrite Halloc; auto]. apply IH; [lia|assumption|lia].
  - destruct H as (v' & ->). cbn. eauto.
Qed.

Lemma missing_sim n i v has : List.length has = List.length (has_init md) -> forall l, (forall f, In f l -> In f (md_fields md)) ->
  let ok := forallb (fun f => let bit := field_bit (required_numbers md) (f_num f) in
    negb (Z.land (nth (bit / 64) has 0) (Z.shiftl 1 (Z.of_nat (bit mod 64))) =? 0)) (filter is_required l) in
  ex n (ublock (flat_map (u_missing md) l)) (K0 has i) v = if ok then UNext (K0 has i) v else URetn (Some ERequired) v.
Proof.
  intros Hl. induction l as [|f l IH]; intros Hi; [reflexivity|]. cbn [flat_map filter]. rewrite ex_app. unfold u_missing at 1.
  destruct (is_required f) eqn:Rf; [|rewrite ex_nil; cbn [bindo]; apply IH; intros; apply Hi; now right].
  assert (In f (md_fields md)) as Hf by (apply Hi; now left). pose proof (has_init_room md f Hf Rf) as Lt. rewrite <- Hl in Lt.
  rewrite ex_cons. cbn [uexec uret]. change (ulook (K0 has i) "hasFields") with (ulook (marks has) "hasFields"). rewrite (marks_some f Hf Rf). cbn [ulook String.eqb Ascii.eqb Bool.eqb forallb].
  apply Nat.ltb_lt in Lt. rewrite Lt, mask_u64. cbv zeta. destruct (Z.land _ _ =? 0); cbn [uleave bindo negb andb]; [reflexivity|].
  rewrite ex_nil. cbn [bindo]. apply IH. intros; apply Hi; now right.
Qed.

Theorem body_sim v : room sc self v ->
  match um_body sc rec env self data v with
  | Ok v' => umethod sc self data base alloc spare callee rounds (u_body dp pool unique unsafe md) v = Ok v'
  | Err e _ => exists v', umethod sc self data base alloc spare callee rounds (u_body dp pool unique unsafe md) v = Err e v'
  | _ => True
  end.
Proof.
  intros R. unfold umethod, u_body, um_body. rewrite ex_app.
  assert (ex 0 (ublock match required_numbers md with [] => [] | l => [UHas (1 + (List.length l - 1) / 64)] end) [] v = UNext (marks (has_init md)) v) as ->.
  { unfold marks, has_init. destruct (required_numbers md); [reflexivity|]. rewrite ex_cons. cbn [uexec bindo]. apply ex_nil. }
  cbn [bindo app]. rewrite ex_cons. cbn [uexec ev bindo]. rewrite ex_cons. cbn [uexec ev num bindo].
  change (("iNdEx", UV (VInt 0)) :: ("l", UV (VInt L)) :: marks (has_init md)) with (K0 (has_init md) 0).
  rewrite ex_cons. cbn [uexec].
  pose proof (loop_sim 0 (S (List.length data)) rounds 0 v (has_init md) Rlen R eq_refl) as H.
  destruct (um_loop sc rec env (S (List.length data)) self data 0 v (has_init md)) as [[[v' i] has]|e v'| |]; cbn [ends rbind fst snd] in *; auto.
  2:{ destruct H as (v2 & ->). cbn. eauto. }
  destruct H as [-> Hl]. cbn [bindo]. rewrite ex_app.
  assert (ex 0 (ublock (flat_map (u_missing md) (md_fields md))) (K0 has i) v' = if has_all md has then UNext (K0 has i) v' else URetn (Some ERequired) v') as ->
    by exact (missing_sim 0 i v' has Hl (md_fields md) (fun _ H => H)).
  destruct (has_all md has); cbn [negb]; [|cbn; eauto]. cbn [bindo]. rewrite ex_cons.
  rewrite (ex_check _ _ _ _ _ _ _ _ _ _ _ (Some EUnexpectedEOF) _ _ (i >? L)).
  2:{ cbn [ev iNdEx]. rewrite (kvar data (K0 has) i (K0_kinv has)), (kvar_l data (K0 has) i (K0_kinv has)). reflexivity. }
  2:{ reflexivity. }
  rewrite Z.gtb_ltb. destruct (L <? i); cbn; eauto.
Qed.
End Method.

(** ** Messages with room *)
Section Roomy.
Variable sc : schema.
Hypothesis W : wf_schema sc = true.


Lemma implicit_no_sub m f k m' : In f (md_fields (md_of sc m)) -> f_ty f = TField LImplicit k -> sub_of k = Some m' -> False.
Proof.
  intros Hf Tf Sk. pose proof (wf_fld sc m f W Hf) as Wf. unfold wf_field in Wf. rewrite Tf in Wf. cbn [wf_type] in Wf. rewrite Sk, !andb_true_iff in Wf. destruct Wf as (_ & _ & Wf). discriminate.
Qed.
Lemma inner_single lbl n v x : lbl = LOptional \/ lbl = LRequired -> In x (inner lbl n v) -> x = v /\ v <> VNil.
Proof. intros [-> | ->] H; cbn [inner] in H; destruct v; try (destruct H as [<-|[]]; split; [reflexivity|discriminate]); destruct H. Qed.
Lemma inner_oneof n v x : In x (inner LOneof n v) -> v = VOneof n x.
Proof. intros H. cbn [inner] in H. destruct v; try destruct H. destruct (Z.eqb_spec num n); [|destruct H]. destruct H as [<-|[]]. congruence. Qed.

Fixpoint mergeable_room m v (H : mergeable sc m v) {struct H} : wt_msg sc m v -> room sc m v.
Proof.
  destruct H as [m s u h H1 H2 H3]. intros Wt. inversion Wt as [? ? ? ? Ls Wf _]; subst. apply room_msg; [assumption| |].
  - intros f lbl k m' x Hf Tf Sk Hx. pose proof (Wf f Hf) as Wx. apply wt_field_inv in Wx. rewrite Tf in Wx.
    assert (lbl = LOptional \/ lbl = LRequired -> wt_msg sc m' x -> room sc m' x) as Sing.
    { intros Hl Wm. apply inner_single in Hx as [-> Nx]; [|assumption]. destruct (H1 f lbl k m' Hf Tf Hl Sk) as [E|M]; [congruence|]. exact (mergeable_room _ _ M Wm). }
    assert (lbl = LOptional \/ lbl = LRequired -> wt_msg sc m' x) as Sw.
    { intros Hl. pose proof (inner_single _ _ _ _ Hl Hx) as [-> Nx].
      assert (slot s (f_slot f) = VNil \/ (exists y, slot s (f_slot f) = VPtr y /\ (is_num k = true \/ k = KString) /\ wt_elem sc k y) \/ (is_num k = false /\ k <> KString /\ wt_elem sc k (slot s (f_slot f)))) as [E|[(y & _ & Q & _)|(_ & _ & Q)]]
        by (destruct Hl as [-> | ->]; exact Wx); [congruence|destruct k; destruct Q; discriminate|].
      apply (wt_elem_sub sc k m') in Q as [Q|Q]; [congruence|assumption|assumption]. }
    destruct lbl.
    + destruct (implicit_no_sub _ _ _ _ Hf Tf Sk).
    + apply Sing; auto.
    + apply Sing; auto.
    + destruct Hx.
    + apply inner_oneof in Hx. destruct Wx as [Wx|(g & k' & y & E & Hg & Sg & Tg & We)]; [congruence|]. rewrite Hx in E. injection E as En <-.
      assert (f = g) as <- by (eapply wf_num_inj; eauto). rewrite Tf in Tg. injection Tg as <-.
      pose proof (H2 f k m' x Hf Tf Sk Hx) as M. apply (mergeable_room _ _ M). apply (wt_elem_sub sc k m') in We as [->|We]; [inversion M|assumption|assumption].
  - intros f p k m' x Hf Tf Sk Hx Nx. destruct (H3 f p k m' x Hf Tf Sk Hx) as [->|[Wx M]]; [congruence|]. exact (mergeable_room _ _ M Wx).
Qed.
Lemma target_room m v : target sc m v -> room sc m v.
Proof. intros [Wt M]. now apply mergeable_room. Qed.
Lemma new_room m : room sc m (new_msg (md_of sc m)).
Proof. apply target_room, target_new; assumption. Qed.

(** Messages with spare capacity that correspond to messages without. *)
Variable okt : kind -> val -> Prop.
Variable kept : nat -> Prop.
Fixpoint rv_room k a b (H : rv sc okt kept k a b) {struct H} : forall m, sub_of k = Some m -> mergeable sc m b -> room sc m a
with rs_room m a b (H : rs sc okt kept m a b) {struct H} : mergeable sc m b -> room sc m a
with rf_room m f a b (H : rf sc okt kept m f a b) {struct H} : In f (md_fields (md_of sc m)) -> mg_at sc f b ->
  forall lbl k m' x, f_ty f = TField lbl k -> sub_of k = Some m' -> In x (inner lbl (f_num f) a) -> room sc m' x
with rm_room m a b (H : rm sc okt kept m a b) {struct H} : mergeable sc m b -> room sc m a.
Proof.
  - destruct H as [k z Nk|k a b K Oa Pb E|k m a b S R]; intros m0 S0 M.
    + destruct k; discriminate.
    + destruct K; subst; discriminate.
    + assert (m0 = m) as -> by congruence. exact (rs_room m a b R M).
  - destruct H as [m|m a b F Ta Tb E|m a b F R]; intros M; [inversion M|now apply room_foreign|]. exact (rm_room m a b R M).
  - destruct H as [m f k a b T X|m f l k T L|m f l T L K|m f l k a b T L K X|m f l k a b T L K1 K2 Na Nb X|m f p k a b T Sa Sb X|m f kk vk a b T Sa Sb X|m f k T|m f k n x y T Nn|m f k x y T X];
      intros Hf [M1 M2] lbl k0 m' z Tf Sk Hz; rewrite Tf in T; try discriminate T; injection T; clear T; intros; subst.
    + destruct (implicit_no_sub _ _ _ _ Hf Tf Sk).
    + destruct L as [-> | ->]; destruct Hz.
    + subst. discriminate.
    + destruct K as [K|K]; [destruct k|subst]; discriminate.
    + apply inner_single in Hz as [-> Nz]; [|assumption]. destruct (M1 _ _ _ Tf L Sk) as [E|M]; [congruence|]. exact (rv_room _ _ _ X _ Sk M).
    + destruct Hz.
    + destruct Hz.
    + apply inner_oneof in Hz. congruence.
    + apply inner_oneof in Hz. injection Hz as ->. exact (rv_room _ _ _ X _ Sk (M2 _ _ _ Tf Sk eq_refl)).
  - destruct H as [m s u h s' h' L1 L2 F Sp Nh Ty]. intros M. inversion M as [? ? ? ? H1 H2 H3]; subst. apply room_msg; [assumption| |].
    + intros f lbl k m' x Hf Tf Sk Hx. refine (rf_room m f _ _ (F f Hf) Hf _ lbl k m' x Tf Sk Hx). split; intros; eauto.
    + intros f p k m' x Hf Tf Sk Hx Nx. destruct (Sp f p k m' x Hf Tf Sk Hx) as [->|R]; [congruence|].
      exact (rs_room _ _ _ R (proj2 (target_new sc W m'))).
Qed.
End Roomy.

(** ** All methods *)
Section All.
Variable sc : schema.
Hypothesis W : wf_schema sc = true.
Hypothesis U : up_dec_ok sc.
Variable dp : nat -> dispatch.
Hypothesis Hdp : forall m, dp m <> DOther -> md_foreign (md_of sc m) = false.
Variable unique : nat -> Z -> bool.
Variable unsafe : bool.
Variable al : list Z -> nat -> val.
Variable spare : list Z -> Z -> nat -> Z.
Hypothesis Hal : forall path m, md_pool (md_of sc m) = true -> room sc m (al path m).

(** The printed method does what the model does, and keeps the room. *)
Definition does (m : nat) (r p : res val val) : Prop :=
  match r with
  | Ok v' => p = Ok v' /\ room sc m v'
  | Err e _ => exists v', p = Err e v'
  | _ => True
  end.

Lemma level_sim n path base m data v rec env : md_foreign (md_of sc m) = false -> bytes_ok data = true -> small data -> room sc m v ->
  (forall i s, ue_str env i s = if unsafe then match s with [] => VStr [] | _ => VRefS (base + i) s end else VStr s) ->
  (forall i s, ue_bytes env i s = if unsafe then VRefB (base + i) s else VBytes s) ->
  (forall i m', ue_alloc env i m' = al (i :: path) m') ->
  (forall i m' buf x, md_foreign (md_of sc m') = false -> bytes_ok buf = true -> small buf -> room sc m' x ->
    does m' (rec i m' buf x) (run_unmarshal sc dp unique unsafe al spare n (i :: path) (base + i) m' buf x)) ->
  does m (um_body sc rec env m data v) (run_unmarshal sc dp unique unsafe al spare (S n) path base m data v).
Proof.
  intros F B S R E1 E2 Ea IH. cbn [run_unmarshal].
  assert (forall i m' buf x, md_foreign (md_of sc m') = false -> bytes_ok buf = true -> zlen buf <= zlen data -> room sc m' x ->
    does m' (rec i m' buf x) (run_unmarshal sc dp unique unsafe al spare n (i :: path) (base + i) m' buf x)) as Hc by (intros; apply IH; auto; unfold small in *; lia).
  assert (forall i m' buf x y, md_foreign (md_of sc m') = false -> bytes_ok buf = true -> zlen buf <= zlen data -> room sc m' x -> rec i m' buf x = Ok y -> room sc m' y) as Hr.
  { intros i m' buf x y F' B' L' R' E. specialize (Hc i m' buf x F' B' L' R'). rewrite E in Hc. apply Hc. }
  assert (forall raw v, up_ext (sc_up sc) m raw = Some v -> room sc m v) as Hx by (intros raw v0 E; apply target_room; [assumption|]; eapply up_ext_wt; eauto).
  pose proof (body_sim sc m data base (fun i m' => al (i :: path) m') (spare path)
    (fun i m' buf x => run_unmarshal sc dp unique unsafe al spare n (i :: path) (base + i) m' buf x) (11 + List.length data) B S) as Q.
  specialize (Q ltac:(lia) ltac:(lia) W F rec env dp (fun m' => md_pool (md_of sc m')) (unique m) unsafe E1 E2 Hdp (fun _ => eq_refl) Ea).
  specialize (Q (fun i m' P => Hal (i :: path) m' P) (new_room sc W)).
  specialize (Q ltac:(intros i m' buf x F' B' L' R'; specialize (Hc i m' buf x F' B' L' R'); unfold does in Hc; destruct (rec i m' buf x); auto; apply Hc) Hr Hx v R).
  unfold does. destruct (um_body sc rec env m data v) as [v'|e v'| |] eqn:E; auto.
  split; [exact Q|]. eapply body_room; eauto using new_room. intros i m' P. rewrite Ea. now apply Hal.
Qed.
End All.

Section Calls.
Variable sc : schema.
Hypothesis W : wf_schema sc = true.
Hypothesis U : up_dec_ok sc.
Variable dp : nat -> dispatch.
Hypothesis Hdp : forall m, dp m <> DOther -> md_foreign (md_of sc m) = false.
Variable unique : nat -> Z -> bool.
Variable al : list Z -> nat -> val.
Variable spare : list Z -> Z -> nat -> Z.
Hypothesis Hal : forall path m, md_pool (md_of sc m) = true -> room sc m (al path m).

Lemma msg_sim : forall n path base m data v, md_foreign (md_of sc m) = false -> bytes_ok data = true -> small data -> room sc m v ->
  does sc m (um_msg sc n m data v) (run_unmarshal sc dp unique false (fun _ m => new_msg (md_of sc m)) spare n path base m data v).
Proof.
  induction n as [|n IH]; intros path base m data v F B S R; [exact Logic.I|]. cbn [um_msg].
  apply (level_sim sc W U dp Hdp unique false (fun _ m => new_msg (md_of sc m)) spare); auto. intros. now apply new_room.
Qed.
Lemma pool_sim : forall n path base m data v, md_foreign (md_of sc m) = false -> bytes_ok data = true -> small data -> room sc m v ->
  does sc m (um_pool sc al n path m data v) (run_unmarshal sc dp unique false al spare n path base m data v).
Proof.
  induction n as [|n IH]; intros path base m data v F B S R; [exact Logic.I|]. cbn [um_pool].
  apply (level_sim sc W U dp Hdp unique false al spare Hal); auto.
Qed.
Lemma unsafe_sim : forall n path base m data v, md_foreign (md_of sc m) = false -> bytes_ok data = true -> small data -> room sc m v ->
  does sc m (um_unsafe sc al n path base m data v) (run_unmarshal sc dp unique true al spare n path base m data v).
Proof.
  induction n as [|n IH]; intros path base m data v F B S R; [exact Logic.I|]. cbn [um_unsafe].
  apply (level_sim sc W U dp Hdp unique true al spare Hal); auto.
Qed.
End Calls.
