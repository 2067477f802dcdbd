(** UnmarshalVT decodes conforming input as [DecodeSpec] says. *)
From Coq Require Import ZArith List Bool Lia.
From Verif Require Import Base BaseFacts Schema Value Helpers Unmarshal WireSpec Typing RecordSpec MsgSpec
  VarintFacts SkipFacts OrderFacts NumFacts ViewFacts TargetFacts UmFacts LoopFacts DecodeSpec.
Import ListNotations.
Open Scope Z_scope.

Lemma wire_eq k : ProtoWireType k = wire_of k. Proof. destruct k; reflexivity. Qed.

Lemma list_set_put s i x : (i < length s)%nat -> list_set s i x = put s i x.
Proof.
  unfold put. revert i. induction s as [|a s IH]; intros [|i] H; cbn [list_set firstn skipn app length] in *; try lia; try reflexivity.
  f_equal. apply IH. lia.
Qed.

Lemma map_set_put sc kk l k x l' : key_kind kk = true -> (forall e, In e l -> wt_elem sc kk (fst e)) ->
  NoDup (map fst l) -> wt_elem sc kk k -> map_put l k x l' -> map_set l k x = l'.
Proof.
  intros K Hl ND Hk H. destruct H as [l k x Hn|l1 l2 k y x].
  - induction l as [|[k' v'] l IH]; cbn [map_set]; [reflexivity|].
    destruct (key_eqb k k') eqn:E.
    + apply (key_eqb_iff sc kk) in E; auto; [|apply (Hl (k', v')); now left]. subst. destruct Hn. now left.
    + cbn. f_equal. inversion ND; subst. apply IH; auto; intros; [apply Hl; now right|]. intros Hi. apply Hn. now right.
  - induction l1 as [|[k' v'] l1 IH]; cbn [map_set app].
    + replace (key_eqb k k) with true; [reflexivity|]. symmetry. now apply (key_eqb_iff sc kk).
    + destruct (key_eqb k k') eqn:E.
      * apply (key_eqb_iff sc kk) in E; auto; [|apply (Hl (k', v')); now left]. subst.
        cbn in ND. inversion ND as [|? ? N1 _]; subst. destruct N1. rewrite map_app, in_app_iff. right. now left.
      * f_equal. inversion ND; subst. apply IH; auto. intros. apply Hl. now right.
Qed.

Section Facts.
Variable sc : schema.
Hypothesis W : wf_schema sc = true.
Hypothesis U : up_dec_ok sc.
Notation env := (safe_env sc).
Notation rc n := (fun _ : Z => um_msg sc n).

Definition marksn (m : nat) (nums : list Z) (has : list Z) : list Z :=
  fold_left (fun h n => mark sc m n h) nums has.

Definition Pdec (m : nat) (q : list Z) (old x : val) : Prop :=
  target sc m old -> bytes_ok q = true -> small q -> forall n i, (length q < n)%nat ->
  decodeMessage sc (rc n) i m q old = Ok x.
Definition Pvalue (k : kind) (old : val) (b : list Z) (x : val) : Prop :=
  (exists z, num_wire k b z /\ x = VInt z) \/
  (exists l q, k = KString /\ b = l ++ q /\ is_len l (zlen q) /\ x = VStr q) \/
  (exists l q, k = KBytes /\ b = l ++ q /\ is_len l (zlen q) /\ x = VBytes q) \/
  (exists m l q, k = KMessage m /\ b = l ++ q /\ is_len l (zlen q) /\ Pdec m q old x).
Definition Pfields (m : nat) (bs : list Z) (v v' : val) (nums : list Z) : Prop :=
  target sc m v -> forall n p s has, bytes_ok (p ++ bs ++ s) = true -> small (p ++ bs ++ s) ->
  (length (p ++ bs ++ s) <= n)%nat ->
  exists k, (k <= length bs)%nat /\ target sc m v' /\
   steps sc m (rc n) (p ++ bs ++ s) k (v, zlen p, has) (v', zlen p + zlen bs, marksn m nums has).
Definition Precord (m : nat) (num : Z) (c : list Z) (v v' : val) : Prop :=
  target sc m v -> forall n p s has, bytes_ok (p ++ c ++ s) = true -> small (p ++ c ++ s) ->
  (length (p ++ c ++ s) <= n)%nat ->
  c <> [] /\ um_step sc (rc n) env m (p ++ c ++ s) (zlen p) v has = Ok (v', zlen p + zlen c, mark sc m num has).
Definition Pentry (kk vk : kind) (b : list Z) (ko vo : option val) : Prop :=
  key_kind kk = true -> is_group vk = false ->
  forall n p s fuel key value, bytes_ok (p ++ b ++ s) = true -> small (p ++ b ++ s) ->
  (length (p ++ b ++ s) <= n)%nat -> (length b < fuel)%nat ->
  (ko <> None -> vint key = 0) -> (vo <> None -> vint value = 0) ->
  map_loop sc (rc n) env fuel kk vk (p ++ b ++ s) (zlen p) (zlen p + zlen b) key value =
    Ok (match ko with Some k => k | None => key end, match vo with Some x => x | None => value end, zlen p + zlen b) /\
  (forall k, ko = Some k -> wt_elem sc kk k).

Lemma num_wire_num k b z : num_wire k b z -> is_num k = true.
Proof. unfold num_wire. destruct k; cbn; intros H; try reflexivity; destruct H. Qed.
Lemma num_wire_ne k b z : num_wire k b z -> b <> [].
Proof.
  unfold num_wire. intros H ->. destruct (wire_of k) as [|[[[]|[]|]|[[]|[]|]|]|]; try destruct H; try discriminate.
Qed.
Lemma is_len_ne l n : is_len l n -> l <> [].
Proof. intros (H & _). now apply is_varint_ne. Qed.
Lemma is_tag_ne l n w : is_tag l n w -> l <> [].
Proof. intros (H & _). now apply is_varint_ne. Qed.
Lemma app_ne {A} (a b : list A) : a <> [] -> a ++ b <> [].
Proof. destruct a; [contradiction|discriminate]. Qed.
Lemma Pvalue_ne k old b x : Pvalue k old b x -> b <> [].
Proof.
  intros [(z & H & _)|[(l & q & _ & -> & H & _)|[(l & q & _ & -> & H & _)|(m & l & q & _ & -> & H & _)]]].
  - eapply num_wire_ne; eauto.
  - eapply app_ne, is_len_ne; eauto.
  - eapply app_ne, is_len_ne; eauto.
  - eapply app_ne, is_len_ne; eauto.
Qed.

Lemma split_ok (p l q s : list Z) : bytes_ok (p ++ (l ++ q) ++ s) = true -> small (p ++ (l ++ q) ++ s) ->
  bytes_ok (l ++ q ++ s) = true /\ small (p ++ l ++ q ++ s) /\ bytes_ok q = true /\ small q.
Proof.
  rewrite <- !app_assoc. intros B S. split; [|split; [assumption|]].
  - rewrite bytes_ok_app in B. now apply andb_true_iff in B.
  - rewrite !bytes_ok_app, !andb_true_iff in B. split; [tauto|]. unfold small in *. rewrite !zlen_app in S.
    pose proof (zlen_nonneg p). pose proof (zlen_nonneg l). pose proof (zlen_nonneg s). lia.
Qed.

Lemma zslice_at p l q s : zslice (p ++ (l ++ q) ++ s) (zlen p + zlen l) (zlen p + zlen l + zlen q) = Some q.
Proof.
  rewrite <- zlen_app. rewrite <- (app_assoc l q s), (app_assoc p l). apply zslice_app.
Qed.

(** Reading a map key or value. *)
Lemma mapField_dec k old cur b x n p s : Pvalue k old b x -> (forall m, k = KMessage m -> old = new_msg (md_of sc m)) ->
  vint cur = 0 -> bytes_ok (p ++ b ++ s) = true -> small (p ++ b ++ s) -> (length (p ++ b ++ s) <= n)%nat ->
  mapField sc (rc n) env k cur (p ++ b ++ s) (zlen p) = Ok (x, zlen p + zlen b) /\ (key_kind k = true -> wt_elem sc k x).
Proof.
  intros V Ho Hc B S L. unfold mapField.
  destruct V as [(z & Nw & ->)|[(l & q & -> & -> & Hl & ->)|[(l & q & -> & -> & Hl & ->)|(m & l & q & -> & -> & Hl & HP)]]].
  - pose proof (num_wire_num _ _ _ Nw) as Nk.
    assert (bytes_ok b = true) as Bb by (rewrite !bytes_ok_app, !andb_true_iff in B; tauto).
    assert ((do r <- decodeNumber k (vint cur) (p ++ b ++ s) (zlen p); Ok (VInt (fst r), snd r)) = @Ok unit _ (VInt z, zlen p + zlen b)) as E.
    { rewrite Hc, (decodeNumber_ok k b z p s Nw Bb S). reflexivity. }
    split; [|intros _; constructor; eapply num_wire_range; eauto].
    destruct k; try discriminate Nk; cbn [classify]; exact E.
  - cbn [classify]. destruct (split_ok p l q s B S) as (B1 & S1 & Bq & Sq). split; [|intros _; now constructor].
    rewrite <- app_assoc, (decodeLen_ok true p l q s Hl B1 S1). cbn [rbind].
    rewrite (app_assoc l q s), zslice_at. cbn [orpanic rbind ue_str safe_env]. now rewrite zlen_app, Z.add_assoc.
  - cbn [classify]. destruct (split_ok p l q s B S) as (B1 & S1 & Bq & Sq). split; [|discriminate].
    rewrite <- app_assoc, (decodeLen_ok true p l q s Hl B1 S1). cbn [rbind].
    rewrite (app_assoc l q s), zslice_at. cbn [orpanic rbind ue_bytes safe_env]. now rewrite zlen_app, Z.add_assoc.
  - cbn [classify]. destruct (split_ok p l q s B S) as (B1 & S1 & Bq & Sq). split; [|discriminate].
    rewrite <- app_assoc, (decodeLen_ok false p l q s Hl B1 S1). cbn [rbind].
    rewrite (app_assoc l q s), zslice_at. cbn [orpanic rbind]. rewrite (Ho m eq_refl) in HP.
    rewrite (HP (target_new sc W m) Bq Sq).
    + cbn [drop_state rbind]. now rewrite zlen_app, Z.add_assoc.
    + pose proof (is_len_ne _ _ Hl). destruct l; [contradiction|]. rewrite !app_length in L. cbn in L. lia.
Qed.

(** Reading a scalar or message into a field. *)
Definition newslot (f : fdesc) (lbl : label) (k : kind) (old x : val) : val :=
  match lbl with
  | LImplicit => x
  | LOptional | LRequired => boxed k x
  | LOneof => VOneof (f_num f) x
  | LRepeated _ => append old [x]
  end.
Definition mergeslot (f : fdesc) (lbl : label) (k : kind) (old : val) : val :=
  match lbl with
  | LOptional | LRequired => merge_into sc k old
  | LOneof => merge_oneof sc k (f_num f) old
  | _ => fresh sc k
  end.

Lemma store_dec f lbl k x s u h m : In f (md_fields (md_of sc m)) -> target sc m (VMsg s u h) ->
  sub_of k = None ->
  store f lbl k x (VMsg s u h) = Some (VMsg (put s (f_slot f) (newslot f lbl k (slot s (f_slot f)) x)) u h).
Proof.
  intros Hf T K. pose proof (wf_slot sc m f W Hf) as Hs. apply target_iff in T as (L & _). rewrite <- L in Hs.
  destruct lbl; cbn [store set_slot get_slot newslot]; rewrite list_set_put by assumption; try reflexivity;
    destruct k; try discriminate K; reflexivity.
Qed.

Lemma fieldItem_dec m f lbl k b x wire s u h n p sf :
  In f (md_fields (md_of sc m)) -> f_ty f = TField lbl k -> target sc m (VMsg s u h) ->
  Pvalue k (mergeslot f lbl k (slot s (f_slot f))) b x ->
  (sub_of k <> None -> (exists pk, lbl = LRepeated pk) -> nth (f_slot f) h [] = []) ->
  bytes_ok (p ++ b ++ sf) = true -> small (p ++ b ++ sf) -> (length (p ++ b ++ sf) <= n)%nat ->
  fieldItem sc (rc n) env (md_of sc m) f lbl k wire (p ++ b ++ sf) (zlen p) (VMsg s u h) =
    Ok (VMsg (put s (f_slot f) (newslot f lbl k (slot s (f_slot f)) x)) u h, zlen p + zlen b).
Proof.
  intros Hf Ty T V Hh B S L. unfold fieldItem.
  pose proof (fun y => store_dec f lbl k y s u h m Hf T) as ST.
  destruct V as [(z & Nw & ->)|[(l & q & -> & -> & Hl & ->)|[(l & q & -> & -> & Hl & ->)|(mm & l & q & -> & -> & Hl & HP)]]].
  - pose proof (num_wire_num _ _ _ Nw) as Nk.
    assert (bytes_ok b = true) as Bb by (rewrite !bytes_ok_app, !andb_true_iff in B; tauto).
    match goal with |- _ = ?R => assert (num_item f lbl k (p ++ b ++ sf) (zlen p) (VMsg s u h) = R) as E end.
    { eapply num_item_ok; [discriminate|exact (decodeNumber_ok k b z p sf Nw Bb S)|]. rewrite ST by (destruct k; try discriminate Nk; reflexivity).
      reflexivity. }
    destruct k; try discriminate Nk; cbn [classify]; exact E.
  - cbn [classify]. destruct (split_ok p l q sf B S) as (B1 & S1 & Bq & Sq).
    rewrite <- app_assoc, (decodeLen_ok true p l q sf Hl B1 S1). cbn [lift rbind].
    rewrite (app_assoc l q sf), zslice_at. cbn [orpanic rbind ue_str safe_env]. rewrite ST by reflexivity.
    cbn [orpanic rbind]. now rewrite zlen_app, Z.add_assoc.
  - cbn [classify]. destruct (split_ok p l q sf B S) as (B1 & S1 & Bq & Sq).
    rewrite <- app_assoc, (decodeLen_ok false p l q sf Hl B1 S1). cbn [lift rbind].
    rewrite (app_assoc l q sf), zslice_at. cbn [orpanic rbind ue_bytes safe_env]. rewrite ST by reflexivity.
    cbn [orpanic rbind]. now rewrite zlen_app, Z.add_assoc.
  - cbn [classify]. destruct (split_ok p l q sf B S) as (B1 & S1 & Bq & Sq). unfold message_item.
    rewrite <- app_assoc, (decodeLen_ok false p l q sf Hl B1 S1). cbn [lift rbind].
    rewrite (app_assoc l q sf), zslice_at. cbn [orpanic rbind ue_alloc safe_env].
    assert (forall b : bool, (if b then new_msg (md_of sc mm) else new_msg (md_of sc mm)) = new_msg (md_of sc mm)) as FR
      by now intros [].
    cbv zeta. rewrite !FR.
    assert (length q < n)%nat as Lq.
    { pose proof (is_len_ne _ _ Hl). destruct l; [contradiction|]. rewrite !app_length in L. cbn in L. lia. }
    pose proof (wf_slot sc m f W Hf) as Hs. pose proof T as T0. apply target_iff in T0 as (Ls & _). rewrite <- Ls in Hs.
    pose proof (wf_ty sc m f W Hf) as WT. rewrite Ty in WT. cbn in WT.
    rewrite zlen_app, Z.add_assoc.
    destruct lbl as [| | |pk|]; cbn [newslot mergeslot] in *.
    + rewrite andb_comm in WT. discriminate.
    + unfold merge_into in HP. cbn [fresh] in HP.
      destruct (slot_sub sc m f _ _ mm s u h T Hf Ty (or_introl eq_refl) eq_refl) as [Ex|Tx].
      * rewrite Ex in *. rewrite (HP (target_new sc W mm) Bq Sq) by assumption. cbn [nest set_slot rbind]. now rewrite list_set_put.
      * destruct (target_vmsg _ _ _ Tx) as (? & ? & ? & Ex). rewrite Ex in *.
        rewrite (HP Tx Bq Sq) by assumption. cbn [nest set_slot rbind]. now rewrite list_set_put.
    + unfold merge_into in HP. cbn [fresh] in HP.
      destruct (slot_sub sc m f _ _ mm s u h T Hf Ty (or_intror eq_refl) eq_refl) as [Ex|Tx].
      * rewrite Ex in *. rewrite (HP (target_new sc W mm) Bq Sq) by assumption. cbn [nest set_slot rbind]. now rewrite list_set_put.
      * destruct (target_vmsg _ _ _ Tx) as (? & ? & ? & Ex). rewrite Ex in *.
        rewrite (HP Tx Bq Sq) by assumption. cbn [nest set_slot rbind]. now rewrite list_set_put.
    + cbn [fresh] in HP. unfold list_grow. rewrite (Hh ltac:(discriminate) (ex_intro _ pk eq_refl)).
      assert ((if md_pool (md_of sc m) then (new_msg (md_of sc mm), h) else (new_msg (md_of sc mm), h)) = (new_msg (md_of sc mm), h)) as ->
        by now destruct (md_pool _).
      rewrite (HP (target_new sc W mm) Bq Sq) by assumption. cbn [nest rbind append]. now rewrite list_set_put.
    + unfold merge_oneof in HP. cbn [fresh] in HP.
      set (keep := match slot s (f_slot f) with VOneof n x => if n =? f_num f then Some x else None | _ => None end).
      assert (match slot s (f_slot f) with VOneof n y => if n =? f_num f then y else new_msg (md_of sc mm) | _ => new_msg (md_of sc mm) end
        = match keep with Some y => y | None => new_msg (md_of sc mm) end) as Ek.
      { unfold keep. destruct (slot s (f_slot f)); try reflexivity. now destruct (_ =? _). }
      rewrite Ek in HP. destruct keep as [y|] eqn:Ek2; unfold keep in Ek2.
      * assert (slot s (f_slot f) = VOneof (f_num f) y) as Es.
        { destruct (slot s (f_slot f)); try discriminate. destruct (num =? f_num f) eqn:En; [|discriminate].
          injection Ek2 as ->. f_equal. lia. }
        rewrite HP; [|eapply slot_oneof; eauto; reflexivity|assumption|assumption|assumption].
        cbn [nest set_slot rbind]. now rewrite list_set_put.
      * rewrite (HP (target_new sc W mm) Bq Sq) by assumption. cbn [drop_state set_slot orpanic rbind]. now rewrite list_set_put.
Qed.

Lemma append_app old a b : append (append old a) b = append old (a ++ b).
Proof.
  destruct a; [reflexivity|]. cbn [append app]. destruct b; cbn [append vlist].
  - now rewrite app_nil_r.
  - now rewrite <- app_assoc.
Qed.

Lemma put_put s i x y : (i < length s)%nat -> put (put s i x) i y = put s i y.
Proof.
  intros H. rewrite <- !list_set_put; rewrite ?list_set_length; try assumption.
  - clear H. revert i. induction s as [|a s IH]; intros [|i]; cbn; auto. now rewrite IH.
  - now rewrite <- list_set_put, list_set_length.
Qed.
Lemma put_slot s i x : (i < length s)%nat -> slot (put s i x) i = x.
Proof. intros. rewrite <- list_set_put by assumption. now apply slot_set_eq. Qed.
Lemma put_same s i : (i < length s)%nat -> put s i (slot s i) = s.
Proof.
  intros. rewrite <- list_set_put by assumption. revert i H. induction s as [|a s IH]; intros [|i] H; cbn in *; try lia; auto.
  f_equal. apply IH. lia.
Qed.

Lemma packed_dec m f pk k wire n sf u h : In f (md_fields (md_of sc m)) -> f_ty f = TField (LRepeated pk) k -> is_num k = true ->
  forall bs zs, Forall2 (num_wire k) bs zs -> forall fuel p s, target sc m (VMsg s u h) ->
  bytes_ok (p ++ concat bs ++ sf) = true -> small (p ++ concat bs ++ sf) -> (length (p ++ concat bs ++ sf) <= n)%nat ->
  (length (concat bs) < fuel)%nat ->
  packed_loop sc (rc n) env fuel (md_of sc m) f (LRepeated pk) k wire (p ++ concat bs ++ sf) (zlen p) (zlen p + zlen (concat bs)) (VMsg s u h) =
    Ok (VMsg (put s (f_slot f) (append (slot s (f_slot f)) (map VInt zs))) u h, zlen p + zlen (concat bs)).
Proof.
  intros Hf Ty Nk. induction 1 as [|b z bs zs Nw F IH]; intros fuel p s T B S L Fu; (destruct fuel as [|fuel]; [lia|]); cbn [packed_loop concat].
  - change (zlen (@nil Z)) with 0. rewrite Z.add_0_r, Z.ltb_irrefl. cbn [map append].
    pose proof (wf_slot sc m f W Hf) as Hs. apply target_iff in T as (Ls & _). rewrite put_same by lia. reflexivity.
  - cbn [concat] in *. rewrite app_length in Fu.
    assert (0 < zlen b) as Hb.
    { pose proof (num_wire_ne _ _ _ Nw). destruct b as [|b0 b1]; [contradiction|]. rewrite zlen_cons. pose proof (zlen_nonneg b1). lia. }
    assert (length b <> 0)%nat by (unfold zlen in Hb; lia).
    replace (zlen p <? zlen p + zlen (b ++ concat bs)) with true by (rewrite zlen_app; pose proof (zlen_nonneg (concat bs)); lia).
    rewrite <- app_assoc in *.
    rewrite (fieldItem_dec m f (LRepeated pk) k b (VInt z) wire s u h n p (concat bs ++ sf) Hf Ty T); auto.
    2:{ left. eauto. }
    2:{ destruct k; try discriminate Nk; cbn; congruence. }
    cbn [rbind fst snd newslot]. rewrite zlen_app, Z.add_assoc.
    rewrite (app_assoc p b) in *. rewrite <- (zlen_app p b).
    pose proof (wf_slot sc m f W Hf) as Hs. pose proof T as T0. apply target_iff in T0 as (Ls & _).
    rewrite IH; auto; try lia.
    + rewrite put_put, put_slot, append_app by lia. reflexivity.
    + rewrite <- list_set_put by lia. cbn [append]. eapply add_rep; eauto. constructor.
      eapply num_wire_range; eauto. rewrite !bytes_ok_app, !andb_true_iff in B. tauto.
Qed.

Lemma num_small num : 0 < num < 536870912 -> s32 num = num.
Proof. intros. apply s32_id. lia. Qed.

Lemma tag_read t num wt p s : is_tag t num wt ->
  decodeVarint u64 0 (p ++ t ++ s) (zlen p) = Ok (u64 (vval t), zlen p + zlen t).
Proof. intros (A & B & _). rewrite decodeVarint_ok by (auto; apply conv_u64). now rewrite Z.lor_0_l. Qed.

(** One iteration at a declared field. *)
Lemma step_field m f t b wt v v' n p s has : In f (md_fields (md_of sc m)) -> is_tag t (f_num f) wt -> wt <> 4 ->
  um_field sc (rc n) env (md_of sc m) f (u64 (vval t)) ((p ++ t) ++ b ++ s) (zlen (p ++ t)) v = Ok (v', zlen (p ++ t) + zlen b) ->
  um_step sc (rc n) env m (p ++ (t ++ b) ++ s) (zlen p) v has = Ok (v', zlen p + zlen (t ++ b), mark sc m (f_num f) has).
Proof.
  intros Hf Ht H4 E. unfold um_step. rewrite <- (app_assoc t b s), (tag_read t _ _ p (b ++ s) Ht). cbn [lift rbind].
  rewrite (tag_wt _ _ _ Ht), (tag_num _ _ _ Ht). pose proof (wf_num sc m f W Hf) as Hn. rewrite num_small by lia.
  replace (wt =? 4) with false by lia. replace (f_num f <=? 0) with false by lia.
  rewrite (find_field_in sc m f W Hf). rewrite <- zlen_app, (app_assoc p t), E. cbn [rbind fst snd].
  unfold mark. rewrite (find_field_in sc m f W Hf). rewrite !zlen_app, Z.add_assoc. reflexivity.
Qed.

Lemma group_no_value k old b x : Pvalue k old b x -> is_group k = false.
Proof.
  intros [(z & H & _)|[(l & q & -> & _)|[(l & q & -> & _)|(m & l & q & -> & _)]]]; try reflexivity.
  apply num_wire_num in H. destruct k; try discriminate; reflexivity.
Qed.

Lemma step_elem m f lbl k t b x s u h : In f (md_fields (md_of sc m)) -> f_ty f = TField lbl k ->
  is_tag t (f_num f) (wire_of k) -> Pvalue k (mergeslot f lbl k (slot s (f_slot f))) b x ->
  (sub_of k <> None -> (exists pk, lbl = LRepeated pk) -> nth (f_slot f) h [] = []) ->
  Precord m (f_num f) (t ++ b) (VMsg s u h) (VMsg (put s (f_slot f) (newslot f lbl k (slot s (f_slot f)) x)) u h).
Proof.
  intros Hf Ty Ht V Hh T n p sf has B S L. split; [eapply app_ne, is_tag_ne; eauto|].
  assert (p ++ (t ++ b) ++ sf = (p ++ t) ++ b ++ sf) as Ea by now rewrite !app_assoc.
  eapply step_field; eauto.
  - destruct k; discriminate.
  - unfold um_field. rewrite Ty, (tag_wt _ _ _ Ht), (wire_eq k), Z.eqb_refl. rewrite Ea in *.
    destruct (packable lbl k); apply fieldItem_dec; auto.
Qed.

Lemma mapkey_fresh k : is_group k = false -> fresh sc k = match k with KMessage m => new_msg (md_of sc m) | _ => VNil end.
Proof. reflexivity. Qed.

Lemma entry_default_zero k : entry_default k = map_zero k.
Proof. now destruct k. Qed.

Lemma loop_done fuel kk vk data i post key value n : (0 < fuel)%nat -> post <= i ->
  map_loop sc (rc n) env fuel kk vk data i post key value = Ok (key, value, i).
Proof. intros F H. destruct fuel; [lia|]. cbn [map_loop]. now replace (i <? post) with false by lia. Qed.

Lemma len_lt (t b r : list Z) fuel : t <> [] -> (length (t ++ b ++ r) < S fuel)%nat -> (length r < fuel)%nat.
Proof. intros H. rewrite !app_length. destruct t; [contradiction|]. cbn. lia. Qed.

Lemma dec_ok :
  (forall k old b x, dec_value sc k old b x -> Pvalue k old b x) /\
  (forall m q old x, decodes sc m q old x -> Pdec m q old x) /\
  (forall m bs v v' nums, dec_fields sc m bs v v' nums -> Pfields m bs v v' nums) /\
  (forall m num c v v', dec_record sc m num c v v' -> Precord m num c v v') /\
  (forall kk vk b ko vo, dec_entry sc kk vk b ko vo -> Pentry kk vk b ko vo).
Proof.
  apply (dec_mut sc Pvalue Pdec Pfields Precord Pentry).
  - (* dv_num *) intros k old bs z H. left. eauto.
  - intros old l q H. right. left. eauto 10.
  - intros old l q H. right. right. left. eauto 10.
  - intros m old l q x H _ IH. right. right. right. exists m, l, q. auto.
  - (* dec_own *)
    intros m bs v v' nums Ff _ IH HR T B S n i L. unfold decodeMessage. rewrite Ff.
    destruct n as [|n]; [lia|]. cbn [um_msg]. unfold um_body.
    destruct (IH T n [] [] (has_init (md_of sc m))) as (k & Hk & T' & St); rewrite ?app_nil_r; cbn [app]; auto; [lia|].
    cbn [app] in St. rewrite app_nil_r in St. change (zlen (@nil Z)) with 0 in St. cbn [Z.add] in St.
    rewrite (steps_loop _ _ _ _ _ _ _ _ _ _ _ _ St) by lia.
    destruct (Datatypes.S (length bs) - k)%nat as [|fuel] eqn:Ek; [lia|]. cbn [um_loop].
    rewrite Z.ltb_irrefl. cbn [rbind].
    assert (has_all (md_of sc m) (marksn m nums (has_init (md_of sc m))) = true) as ->; [|cbn [negb]; now rewrite Z.ltb_irrefl].
    apply has_all_iff. intros f Hf Rf. specialize (HR f Hf Rf).
    assert (forall ns has, length has = length (has_init (md_of sc m)) ->
      (In (f_num f) ns \/ has_bit (md_of sc m) has f = true) -> has_bit (md_of sc m) (marksn m ns has) f = true) as G.
    { clear HR. induction ns as [|x ns IHn]; intros has Lh HH; cbn [marksn fold_left]; [destruct HH as [HH|HH]; [destruct HH|exact HH]|].
      apply IHn.
      - unfold mark. destruct (find_field x _); [now rewrite has_set_length|assumption].
      - destruct HH as [HH|HH]; [destruct HH as [->|HH]|]; auto.
        + right. unfold mark. rewrite (find_field_in sc m f W Hf). rewrite has_set_bit by assumption. now rewrite Z.eqb_refl.
        + right. unfold mark. destruct (find_field x _) as [g|] eqn:Eg; [|assumption].
          apply find_some in Eg as [Hg _]. now apply has_set_mono. }
    apply G; auto.
  - (* dec_up *)
    intros m bs v' Ff E T B S n i L. unfold decodeMessage. rewrite Ff, E. reflexivity.
  - (* df_nil *)
    intros m v T n p s has B S L. exists 0%nat. split; [cbn; lia|]. split; [assumption|].
    change (zlen (@nil Z)) with 0. rewrite Z.add_0_r. constructor.
  - (* df_cons *)
    intros m num c bs v v1 v' nums _ IHr _ IHf T n p s has B S L. rewrite <- app_assoc in *.
    destruct (IHr T n p (bs ++ s) has B S L) as [Nc E].
    assert (target sc m v1) as T1.
    { assert (view (p ++ c ++ bs ++ s) (p ++ c ++ bs ++ s) (zlen p) (zlen p) (c ++ bs ++ s) []) as V.
      { eapply (view_adv _ _ 0 0 p). replace (p ++ c ++ bs ++ s) with (p ++ (c ++ bs ++ s)) at 3 by reflexivity. now apply view_self. }
      destruct (um_step_par sc W U (length (p ++ c ++ bs ++ s)) _ _
        (fun mm buf vv HL => um_msg_rec sc W U n mm buf vv ltac:(lia)) m _ _ _ _ _ _ v has V B B ltac:(rewrite !app_length; lia) T)
        as [(c' & s0 & v2 & has' & _ & _ & T2 & E2 & _)|(e & st & E2 & _)]; rewrite E in E2; [|discriminate].
      injection E2; intros; subst; assumption. }
    rewrite (app_assoc p c) in *.
    destruct (IHf T1 n (p ++ c) s (mark sc m num has) B S L) as (k & Hk & T' & St).
    exists (Datatypes.S k). split; [rewrite app_length; destruct c; [contradiction|cbn; lia]|]. split; [assumption|].
    econstructor; [| exact E|].
    + rewrite !zlen_app. destruct c as [|c0 c]; [contradiction|]. rewrite zlen_cons.
      pose proof (zlen_nonneg c). pose proof (zlen_nonneg bs). pose proof (zlen_nonneg s). lia.
    + rewrite !zlen_app, Z.add_assoc in *. exact St.
  - (* dr_implicit *)
    intros m f k t b x s u h Hf Ty Ht _ IH. apply (step_elem m f LImplicit k t b x s u h Hf Ty Ht).
    + cbn [mergeslot]. pose proof (wf_ty sc m f W Hf) as WT. rewrite Ty in WT. cbn in WT.
      destruct IH as [H|[H|[H|(mm & l & q & -> & _)]]]; [left|right; left|right; right; left|rewrite andb_comm in WT; discriminate]; assumption.
    + intros _ [pk Hp]. discriminate.
  - (* dr_present *)
    intros m f l k t b x s u h Hf Ty [-> | ->] Ht _ IH.
    + apply (step_elem m f LOptional k t b x s u h Hf Ty Ht IH). intros _ [pk Hp]. discriminate.
    + apply (step_elem m f LRequired k t b x s u h Hf Ty Ht IH). intros _ [pk Hp]. discriminate.
  - intros m f k t b x s u h Hf Ty Ht _ IH. apply (step_elem m f LOneof k t b x s u h Hf Ty Ht IH). intros _ [pk Hp]. discriminate.
  - intros m f pk k t b x s u h Hf Ty Ht _ IH Hh. apply (step_elem m f (LRepeated pk) k t b x s u h Hf Ty Ht IH). auto.
  - (* dr_packed *)
    intros m f pk k t l bs zs s u h Hf Ty Nk Ht Hl F T n p sf has B S L. split; [eapply app_ne, is_tag_ne; eauto|].
    eapply step_field; eauto; [discriminate|].
    assert (p ++ (t ++ l ++ concat bs) ++ sf = (p ++ t) ++ (l ++ concat bs) ++ sf) as Ea by now rewrite !app_assoc.
    rewrite Ea in *. unfold um_field. rewrite Ty, (tag_wt _ _ _ Ht), wire_eq.
    assert (wire_of k <> 2) as Wk by (destruct k; try discriminate; cbn; lia).
    assert (packable (LRepeated pk) k = true) as -> by (unfold packable; rewrite wire_eq; lia).
    replace (2 =? wire_of k) with false by lia. cbn [Z.eqb Pos.eqb].
    destruct (split_ok (p ++ t) l (concat bs) sf B S) as (B1 & S1 & _).
    rewrite <- (app_assoc l), (decodeLen_ok false (p ++ t) l (concat bs) sf Hl B1 S1). cbn [lift rbind].
    rewrite (app_assoc (p ++ t) l) in *. rewrite <- (zlen_app (p ++ t) l).
    rewrite (packed_dec m f pk k _ n sf u h Hf Ty Nk bs zs F); auto.
    + rewrite !zlen_app, !Z.add_assoc. reflexivity.
    + rewrite <- (app_assoc (p ++ t)). rewrite bytes_ok_app, B1, andb_true_r.
      rewrite bytes_ok_app in B. now apply andb_true_iff in B.
    + rewrite !app_length in *. lia.
    + rewrite !app_length. lia.
  - (* dr_map *)
    intros m f kk vk t l b ko vo l' s u h Hf Ty Ht Hl _ IH MP T n p sf has B S L. split; [eapply app_ne, is_tag_ne; eauto|].
    eapply step_field; eauto; [discriminate|].
    assert (p ++ (t ++ l ++ b) ++ sf = (p ++ t) ++ (l ++ b) ++ sf) as Ea by now rewrite !app_assoc.
    rewrite Ea in *. unfold um_field. rewrite Ty, (tag_wt _ _ _ Ht). cbn [Z.eqb Pos.eqb]. unfold map_item.
    destruct (split_ok (p ++ t) l b sf B S) as (B1 & S1 & _).
    rewrite <- (app_assoc l), (decodeLen_ok false (p ++ t) l b sf Hl B1 S1). cbn [lift rbind get_slot set_slot orpanic].
    pose proof (wf_ty sc m f W Hf) as WT. rewrite Ty in WT. cbn in WT. rewrite !andb_true_iff in WT.
    destruct WT as [[WK _] WG]. apply negb_true_iff in WG.
    rewrite (app_assoc (p ++ t) l) in *. rewrite <- (zlen_app (p ++ t) l).
    destruct (IH WK WG n ((p ++ t) ++ l) sf (Datatypes.S (length (((p ++ t) ++ l) ++ b ++ sf))) (map_zero kk) (map_zero vk)) as [E KW].
    + rewrite <- (app_assoc (p ++ t)). rewrite bytes_ok_app, B1, andb_true_r.
      rewrite bytes_ok_app in B. now apply andb_true_iff in B.
    + assumption.
    + rewrite !app_length in *. lia.
    + rewrite !app_length. lia.
    + intros _. destruct kk; reflexivity.
    + intros _. destruct vk; reflexivity.
    + rewrite E. cbn [lift rbind orpanic].
      pose proof (wf_slot sc m f W Hf) as Hs. pose proof T as T0. apply target_iff in T0 as (Ls & _ & _ & F).
      destruct (F f Hf) as [Wf _]. rewrite !zlen_app, !Z.add_assoc. do 2 f_equal. f_equal.
      rewrite list_set_put by (rewrite list_set_length; lia). rewrite list_set_put by lia. rewrite put_put by lia. f_equal. f_equal.
      rewrite <- !entry_default_zero. apply wt_field_inv in Wf. rewrite Ty in Wf.
      assert ((forall e, In e (vmap (slot s (f_slot f))) -> wt_elem sc kk (fst e)) /\ NoDup (map fst (vmap (slot s (f_slot f))))) as [Wl ND].
      { destruct Wf as [->|(ml & -> & Hml & _ & ND)]; cbn; [split; [intros ? []|constructor]|]. split; assumption. }
      apply (map_set_put sc kk) with (1 := WK); auto.
      destruct ko as [k0|]; [now apply KW|]. rewrite entry_default_zero. apply map_zero_wt. destruct kk; try discriminate WK; reflexivity.
  - (* dr_unknown *)
    intros m num wt c s u h (Hn & Hd & He) R T n p sf has B S L.
    destruct (record_starts num wt c R) as (t & r & -> & Ht). split; [eapply app_ne, is_tag_ne; eauto|].
    assert (wt <> 4) as H4 by (inversion R; lia).
    unfold um_step. rewrite <- (app_assoc t r sf), (tag_read t _ _ p (r ++ sf) Ht). cbn [lift rbind].
    rewrite (tag_wt _ _ _ Ht), (tag_num _ _ _ Ht), num_small by lia.
    replace (wt =? 4) with false by lia. replace (num <=? 0) with false by lia.
    assert (find_field num (md_fields (md_of sc m)) = None) as Fn.
    { destruct (find_field num _) as [g|] eqn:Eg; [|reflexivity]. apply find_some in Eg as [Hg Eq]. destruct (Hd g Hg). lia. }
    rewrite Fn. unfold mark. rewrite Fn. rewrite (app_assoc t r sf). set (c := t ++ r) in *.
    unfold um_unknown. rewrite zslice_suf. cbn [orpanic rbind].
    assert (small (c ++ sf)) as Sc by (unfold small in *; rewrite zlen_app in S; pose proof (zlen_nonneg p); lia).
    rewrite (Skip_complete false num wt c sf R Sc). cbn [lift rbind].
    pose proof (zlen_nonneg c). pose proof (zlen_nonneg p). pose proof (zlen_nonneg sf).
    assert (s64 (zlen p + zlen c) = zlen p + zlen c) as -> by (unfold small in S; rewrite !zlen_app in S; apply s64_id; lia).
    replace (zlen c <? 0) with false by lia. replace (zlen p + zlen c <? 0) with false by lia. cbn [orb].
    replace (zlen (p ++ c ++ sf) <? zlen p + zlen c) with false by (rewrite !zlen_app; lia).
    rewrite zslice_app. cbn [orpanic rbind].
    assert (in_ext (md_of sc m) num = false) as ->.
    { unfold in_ext. destruct (existsb _ _) eqn:Ex; [|reflexivity]. apply existsb_exists in Ex as (rr & Hr & Hb).
      destruct (He rr Hr). lia. }
    destruct (md_keep (md_of sc m)); reflexivity.
  - (* de_nil *)
    intros kk vk _ _ n p s fuel key value B S L F _ _. split; [|discriminate].
    change (zlen (@nil Z)) with 0. rewrite Z.add_0_r. apply loop_done; cbn in F; lia.
  - (* de_key *)
    intros kk vk t b bs k vo Ht _ IHv _ IHe K G n p s fuel key value B S L F HK HV.
    destruct fuel as [|fuel]; [lia|]. pose proof (is_tag_ne _ _ _ Ht) as Nt. cbn [map_loop].
    assert (zlen t > 0) as Zt by (destruct t as [|t0 t1]; [contradiction|rewrite zlen_cons; pose proof (zlen_nonneg t1); lia]).
    replace (zlen p <? zlen p + zlen (t ++ b ++ bs)) with true
      by (rewrite zlen_app; pose proof (zlen_nonneg (b ++ bs)); lia).
    assert (p ++ (t ++ b ++ bs) ++ s = p ++ t ++ b ++ bs ++ s) as Ea by now rewrite <- !app_assoc.
    rewrite Ea in *. rewrite (tag_read t _ _ p _ Ht). cbn [rbind]. rewrite (tag_num _ _ _ Ht).
    change (s32 1) with 1. cbn [Z.eqb Pos.eqb]. rewrite <- zlen_app. rewrite (app_assoc p t) in *.
    destruct (mapField_dec kk VNil key b k n (p ++ t) (bs ++ s)) as [E Wk]; auto.
    { intros mm ->. discriminate. } { apply HK. discriminate. }
    rewrite E. cbn [rbind fst snd]. rewrite <- zlen_app. rewrite (app_assoc (p ++ t) b) in *.
    destruct (IHe K G n ((p ++ t) ++ b) s fuel k value) as [E2 _]; auto.
    { eapply len_lt; eauto. } { intros H; destruct (H eq_refl). }
    replace (zlen p + zlen (t ++ b ++ bs)) with (zlen ((p ++ t) ++ b) + zlen bs) by (rewrite !zlen_app; lia).
    rewrite E2. split; [reflexivity|]. intros k0 [= <-]. now apply Wk.
  - (* de_value *)
    intros kk vk t b bs ko x Ht _ IHv _ IHe K G n p s fuel key value B S L F HK HV.
    destruct fuel as [|fuel]; [lia|]. pose proof (is_tag_ne _ _ _ Ht) as Nt. cbn [map_loop].
    assert (zlen t > 0) as Zt by (destruct t as [|t0 t1]; [contradiction|rewrite zlen_cons; pose proof (zlen_nonneg t1); lia]).
    replace (zlen p <? zlen p + zlen (t ++ b ++ bs)) with true
      by (rewrite zlen_app; pose proof (zlen_nonneg (b ++ bs)); lia).
    assert (p ++ (t ++ b ++ bs) ++ s = p ++ t ++ b ++ bs ++ s) as Ea by now rewrite <- !app_assoc.
    rewrite Ea in *. rewrite (tag_read t _ _ p _ Ht). cbn [rbind]. rewrite (tag_num _ _ _ Ht).
    change (s32 2) with 2. cbn [Z.eqb Pos.eqb]. rewrite <- zlen_app. rewrite (app_assoc p t) in *.
    destruct (mapField_dec vk (fresh sc vk) value b x n (p ++ t) (bs ++ s)) as [E Wk]; auto.
    { intros mm ->. reflexivity. } { apply HV. discriminate. }
    rewrite E. cbn [rbind fst snd]. rewrite <- zlen_app. rewrite (app_assoc (p ++ t) b) in *.
    destruct (IHe K G n ((p ++ t) ++ b) s fuel key x) as [E2 Wk2]; auto.
    { eapply len_lt; eauto. } { intros H; destruct (H eq_refl). }
    replace (zlen p + zlen (t ++ b ++ bs)) with (zlen ((p ++ t) ++ b) + zlen bs) by (rewrite !zlen_app; lia).
    rewrite E2. split; [reflexivity|]. exact Wk2.
  - (* de_unknown *)
    intros kk vk num wt c bs ko vo Hn R _ IHe K G n p s fuel key value B S L F HK HV.
    destruct fuel as [|fuel]; [lia|]. cbn [map_loop].
    destruct (record_starts num wt c R) as (t & r & Ec & Ht).
    pose proof (is_tag_ne _ _ _ Ht) as Nt.
    assert (0 < zlen t) as Zt by (destruct t as [|t0 t1]; [contradiction|rewrite zlen_cons; pose proof (zlen_nonneg t1); lia]).
    assert (0 < zlen c) as Zc by (rewrite Ec, zlen_app; pose proof (zlen_nonneg r); lia).
    pose proof (zlen_nonneg bs). pose proof (zlen_nonneg p). pose proof (zlen_nonneg s).
    replace (zlen p <? zlen p + zlen (c ++ bs)) with true by (rewrite zlen_app; lia).
    rewrite <- (app_assoc c bs s) in *.
    assert (decodeVarint u64 0 (p ++ c ++ bs ++ s) (zlen p) = Ok (u64 (vval t), zlen p + zlen t)) as ->.
    { rewrite Ec, <- (app_assoc t r). eapply tag_read; eauto. }
    cbn [rbind]. rewrite (tag_num _ _ _ Ht), num_small by lia.
    replace (num =? 1) with false by lia. replace (num =? 2) with false by lia.
    rewrite zslice_suf. cbn [orpanic rbind].
    assert (small (c ++ bs ++ s)) as Sc by (unfold small in *; rewrite zlen_app in S; lia).
    rewrite (Skip_complete false num wt c (bs ++ s) R Sc). cbn [rbind].
    assert (s64 (zlen p + zlen c) = zlen p + zlen c) as -> by (unfold small in S; rewrite !zlen_app in S; apply s64_id; lia).
    replace (zlen c <? 0) with false by lia. replace (zlen p + zlen c <? 0) with false by lia. cbn [orb].
    replace (zlen p + zlen (c ++ bs) <? zlen p + zlen c) with false by (rewrite !zlen_app; lia).
    rewrite (app_assoc p c) in *.
    destruct (IHe K G n (p ++ c) s fuel key value) as [E2 Wk2]; auto.
    { rewrite app_length in F. unfold zlen in Zc. lia. }
    rewrite <- zlen_app.
    replace (zlen p + zlen (c ++ bs)) with (zlen (p ++ c) + zlen bs) by (rewrite !zlen_app; lia).
    rewrite E2. split; [reflexivity|]. exact Wk2.
Qed.
End Facts.
