(** The encoding of a message decodes to a message of the same content. *)
From Coq Require Import ZArith List Bool Lia Permutation.
From Verif Require Import Base BaseFacts Schema Value WireSpec Typing RecordSpec MsgSpec DecodeSpec ContentSpec
  VarintFacts NumFacts MarshalFacts DecodeFacts TargetFacts SameFacts.
Import ListNotations.
Open Scope Z_scope.

Lemma tag_is num wt : 1 <= num < 536870912 -> 0 <= wt < 8 -> is_tag (tag num wt) num wt.
Proof.
  intros Hn Hw. unfold tag. split; [apply varint_is; lia|]. split; [apply varint_len64; lia|].
  split; [lia|]. split; [lia|]. rewrite varint_val by lia. apply Z.mod_small. lia.
Qed.
Lemma len_is n : 0 <= n < 18446744073709551616 -> is_len (varint n) n.
Proof.
  intros H. split; [apply varint_is; lia|]. split; [apply varint_len64; lia|]. rewrite varint_val by lia. now apply Z.mod_small.
Qed.
Lemma zlen_ld q : zlen q <= zlen (ld q).
Proof. unfold ld. rewrite zlen_app. pose proof (zlen_nonneg (varint (zlen q))). lia. Qed.

Lemma fields_app sc m p q v1 v2 v3 n1 n2 : dec_fields sc m p v1 v2 n1 -> dec_fields sc m q v2 v3 n2 ->
  dec_fields sc m (p ++ q) v1 v3 (n1 ++ n2).
Proof.
  intros H. revert v3 n2. induction H; intros; cbn; [assumption|]. rewrite <- app_assoc. econstructor; eauto.
Qed.
Lemma fields_one sc m num c v v' : dec_record sc m num c v v' -> dec_fields sc m c v v' [num].
Proof. intros H. rewrite <- (app_nil_r c). econstructor; [eassumption|constructor]. Qed.

Lemma Forall2_imp {A C} (R Q : A -> C -> Prop) l l' : (forall a b, R a b -> Q a b) -> Forall2 R l l' -> Forall2 Q l l'.
Proof. induction 2; constructor; auto. Qed.

Lemma field_dec (f g : fdesc) : {f = g} + {f <> g}. Proof. repeat decide equality. Qed.

Lemma put_length s i x : (i < length s)%nat -> length (put s i x) = length s.
Proof. intros. rewrite <- list_set_put by assumption. apply list_set_length. Qed.
Lemma put_other s i j x : (i < length s)%nat -> i <> j -> slot (put s i x) j = slot s j.
Proof. intros. rewrite <- list_set_put by assumption. now apply slot_set_neq. Qed.

Section RT.
Variable sc : schema.
Variable ord : nat -> list fdesc.
Variable P : nat -> val -> val -> Prop.
Hypothesis W : wf_schema sc = true.
Hypothesis HO : forall m, Permutation (ord m) (md_fields (md_of sc m)).
Hypothesis UD : up_dec_ok sc.
Notation B := 9223372036854775800.
Notation sv := (same_value sc same_bits zero_normal P).
Notation sf := (same_field sc same_bits zero_normal P).
Notation sm := (same_msg sc same_bits zero_normal P).

Section Level.
Variable n : nat.
Notation re := (enc_msg sc ord n).
Hypothesis IH : forall m v, wt_ptrmsg sc m v -> (vdepth v < n)%nat -> md_foreign (md_of sc m) = false ->
  decodable sc P m v -> ~ MissingRequired sc m v -> zlen (re m v) < B ->
  exists v', decodes sc m (re m v) (new_msg (md_of sc m)) v' /\ sm m (or_empty sc m v) v'.

Lemma value_rt k x : wt_elem sc k x -> (vdepth x < n)%nat -> is_group k = false ->
  (forall m, sub_of k = Some m -> decodable sc P m x /\ (x <> VNil -> ~ MissingSub sc m x)) ->
  zlen (enc_value sc re k x) < B ->
  exists y, dec_value sc k (fresh sc k) (enc_value sc re k x) y /\ sv k x y /\
    (is_num k = true \/ k = KString -> y = x) /\ y <> VNil /\ (forall z, y <> VPtr z).
Proof.
  intros T D G S Z. destruct (is_num k) eqn:N.
  { destruct (wt_elem_num sc k x N T) as (z & -> & R). exists (VInt z). split; [|split; [|split; [auto|split; discriminate]]].
    - apply dv_num. now apply num_wire_enc.
    - apply sv_num; [assumption|reflexivity]. }
  destruct (sub_of k) as [m|] eqn:Sk.
  - destruct k; try discriminate. cbn in Sk. injection Sk as ->. destruct (S m eq_refl) as [Dx Mx].
    assert (wt_ptrmsg sc m x) as Tx by (eapply wt_elem_sub; eauto; reflexivity).
    cbn [enc_value] in *. pose proof (zlen_ld (enc_sub sc re m x)) as Lq.
    assert (exists y, decodes sc m (enc_sub sc re m x) (new_msg (md_of sc m)) y /\ sv (KMessage m) x y /\ y <> VNil /\ forall z, y <> VPtr z) as (y & Dy & Sy & Ny & Np).
    { unfold enc_sub in *. destruct (md_foreign (md_of sc m)) eqn:F.
      - pose proof (Dx m x (in_self sc m x)) as Ho. unfold ok_here in Ho. rewrite F in Ho. destruct Ho as (_ & y & Ey & Py). exists y.
        destruct (up_dec_wt sc UD m _ _ F Ey) as [Wy _]. inversion Wy; subst.
        split; [now apply dec_up|]. split; [|split; discriminate].
        eapply sv_up; [reflexivity|assumption|exact Py].
      - destruct (IH m x Tx D F Dx) as (y & Dy & Sy).
        + intros M. destruct x; try (apply (Mx ltac:(discriminate)); now apply miss_own). inversion M.
        + lia.
        + exists y. split; [assumption|]. inversion Sy; subst. split; [|split; discriminate].
          eapply sv_msg; [reflexivity|assumption|exact Sy]. }
    exists y. split; [|split; [assumption|split; [intros [|]; discriminate|split; assumption]]].
    apply dv_msg; [|assumption]. apply len_is. pose proof (zlen_nonneg (enc_sub sc re m x)). lia.
  - destruct k; try discriminate; cbn [enc_value] in *; pose proof (zlen_ld (vbytes x)); pose proof (zlen_nonneg (vbytes x)).
    + inversion T as [| s | | | |]; subst; try discriminate. exists (VStr s). split; [|split; [|split; [auto|split; discriminate]]].
      * apply dv_str, len_is. cbn in *. lia.
      * apply sv_text; auto.
    + exists (VBytes (vbytes x)). split; [|split; [|split; [intros [|]; discriminate|split; discriminate]]].
      * apply dv_bytes, len_is. lia.
      * apply sv_text; auto.
Qed.

Lemma enc_tagged_eq num k x : is_group k = false -> enc_tagged sc re num k x = tag num (wire_of k) ++ enc_value sc re k x.
Proof. destruct k; try reflexivity. discriminate. Qed.

Lemma wire_lt k : 0 <= wire_of k < 8. Proof. destruct k; cbn; lia. Qed.

(** List elements, one record each. *)
Lemma list_rt m f p k : In f (md_fields (md_of sc m)) -> f_ty f = TField (LRepeated p) k -> is_group k = false ->
  forall l s u, (f_slot f < length s)%nat ->
  (forall x, In x l -> exists y, dec_value sc k (fresh sc k) (enc_value sc re k x) y /\ sv k x y) ->
  exists ys nums, dec_fields sc m (concat (map (enc_tagged sc re (f_num f) k) l)) (VMsg s u [])
      (VMsg (put s (f_slot f) (append (slot s (f_slot f)) ys)) u []) nums /\ Forall2 (sv k) l ys.
Proof.
  intros Hf Ty G. induction l as [|x l IHl]; intros s u Hs V.
  - exists [], []. cbn [append]. rewrite put_same by assumption. split; constructor.
  - destruct (V x (or_introl eq_refl)) as (y & Dy & Sy).
    destruct (IHl (put s (f_slot f) (append (slot s (f_slot f)) [y])) u) as (ys & nums & D & F).
    { rewrite <- list_set_put, list_set_length by assumption. assumption. }
    { intros. apply V. now right. }
    rewrite put_slot, put_put, append_app in D by assumption.
    exists (y :: ys), (f_num f :: nums). split; [|now constructor].
    cbn [map concat]. eapply df_cons; [|exact D]. rewrite enc_tagged_eq by assumption.
    eapply dr_repeated; eauto.
    + apply tag_is; [now apply (wf_num sc m)|apply wire_lt].
    + intros _. now destruct (f_slot f).
Qed.

Lemma elem_bound {A} (e : A -> list Z) l x : In x l -> zlen (e x) <= zlen (concat (map e l)).
Proof.
  intros H. apply in_split in H as (l1 & l2 & ->). rewrite map_app, concat_app, zlen_app. cbn [map concat].
  rewrite zlen_app. pose proof (zlen_nonneg (concat (map e l1))). pose proof (zlen_nonneg (concat (map e l2))). lia.
Qed.

(** Map entries. *)
Lemma map_rt m f kk vk : In f (md_fields (md_of sc m)) -> f_ty f = TMap kk vk ->
  forall l s u l0, (f_slot f < length s)%nat -> vmap (slot s (f_slot f)) = l0 ->
  (slot s (f_slot f) = VNil \/ slot s (f_slot f) = VMap l0) ->
  NoDup (map fst (l0 ++ l)) ->
  (forall e, In e l -> exists y, dec_value sc kk VNil (enc_value sc re kk (fst e)) (fst e) /\ sv kk (fst e) (fst e) /\
     dec_value sc vk (fresh sc vk) (enc_value sc re vk (snd e)) y /\ sv vk (snd e) y) ->
  zlen (concat (map (enc_entry sc re (f_num f) kk vk) l)) < B ->
  exists ys nums, dec_fields sc m (concat (map (enc_entry sc re (f_num f) kk vk) l)) (VMsg s u [])
      (VMsg (put s (f_slot f) (match l with [] => slot s (f_slot f) | _ => VMap (l0 ++ ys) end)) u []) nums /\
    Forall2 (fun e e' => (sv kk (fst e) (fst e') /\ fst e = fst e') /\ sv vk (snd e) (snd e')) l ys.
Proof.
  intros Hf Ty. induction l as [|[k x] l IHl]; intros s u l0 Hs El Hn ND V Z.
  - exists [], []. cbn [map concat]. rewrite put_same by assumption. split; constructor.
  - destruct (V (k, x) (or_introl eq_refl)) as (y & Dk & Sk & Dy & Sy). cbn [fst snd] in *.
    cbn [map concat] in Z. rewrite zlen_app in Z.
    destruct (IHl (put s (f_slot f) (VMap (l0 ++ [(k, y)]))) u (l0 ++ [(k, y)])) as (ys & nums & D & F).
    { rewrite <- list_set_put, list_set_length by assumption. assumption. }
    { rewrite put_slot by assumption. reflexivity. }
    { right. now rewrite put_slot by assumption. }
    { rewrite <- app_assoc. rewrite !map_app in *. exact ND. }
    { intros. apply V. now right. }
    { pose proof (zlen_nonneg (enc_entry sc re (f_num f) kk vk (k, x))). lia. }
    exists ((k, y) :: ys), (f_num f :: nums). split; [|constructor; auto].
    assert (match l with [] => slot (put s (f_slot f) (VMap (l0 ++ [(k, y)]))) (f_slot f) | _ => VMap ((l0 ++ [(k, y)]) ++ ys) end
            = VMap (l0 ++ (k, y) :: ys)) as Ev.
    { destruct l; [inversion F; subst|rewrite <- app_assoc; reflexivity]. now rewrite put_slot. }
    rewrite Ev, put_put in D by assumption.
    cbn [map concat]. eapply df_cons; [|exact D]. unfold enc_entry. cbn [fst snd]. unfold ld.
    set (b := tag 1 (wire_of kk) ++ enc_value sc re kk k ++ tag 2 (wire_of vk) ++ enc_value sc re vk x) in *.
    assert (zlen b < B) as Zb.
    { assert (zlen b <= zlen (enc_entry sc re (f_num f) kk vk (k, x))) as L.
      { unfold enc_entry. cbn [fst snd]. fold b. rewrite zlen_app. pose proof (zlen_ld b). pose proof (zlen_nonneg (tag (f_num f) 2)). lia. }
      pose proof (zlen_nonneg (concat (map (enc_entry sc re (f_num f) kk vk) l))). lia. }
    apply (dr_map sc m f kk vk _ _ b (Some k) (Some y)); auto.
    + apply tag_is; [now apply (wf_num sc m)|lia].
    + apply len_is. pose proof (zlen_nonneg b). lia.
    + unfold b. apply de_key; [apply tag_is; [lia|apply wire_lt]|exact Dk|].
      rewrite <- (app_nil_r (enc_value sc re vk x)). apply de_value; [apply tag_is; [lia|apply wire_lt]|exact Dy|constructor].
    + rewrite El. apply mp_new. rewrite map_app in ND. cbn [map fst] in ND. apply NoDup_remove_2 in ND.
      intros Hi. apply ND. rewrite in_app_iff. now left.
Qed.

(** One field; [old] is what the struct member holds before. *)
Lemma field_rt m f v s u : In f (md_fields (md_of sc m)) -> (f_slot f < length s)%nat ->
  wt_field sc (md_of sc m) f v -> (vdepth v < n)%nat ->
  (forall k m1 x, holds f v k x -> sub_of k = Some m1 -> decodable sc P m1 x /\ (x <> VNil -> ~ MissingSub sc m1 x)) ->
  (forall l g, f_ty f = TField l (KGroup g) -> v = VNil) ->
  (is_oneof f = false -> slot s (f_slot f) = zero_of (f_ty f)) ->
  (is_oneof f = true -> forall x, slot s (f_slot f) <> VOneof (f_num f) x) ->
  zlen (enc_field sc re f v) < B ->
  exists y nums, dec_fields sc m (enc_field sc re f v) (VMsg s u []) (VMsg (put s (f_slot f) y) u []) nums /\
    sf f v y /\ (is_required f = true -> v <> VNil -> In (f_num f) nums) /\
    (is_oneof f = true -> (forall x, v <> VOneof (f_num f) x) -> y = slot s (f_slot f)).
Proof.
  intros Hf Hs T D HS HG Z0 Z1 Z. pose proof (wf_num sc m f W Hf) as Hn. pose proof (wf_ty sc m f W Hf) as WT.
  assert (forall b x y lbl k, f_ty f = TField lbl k -> (lbl = LOptional \/ lbl = LRequired \/ lbl = LOneof) -> 
    b = enc_tagged sc re (f_num f) k x -> is_group k = false -> dec_value sc k (fresh sc k) (enc_value sc re k x) y ->
    dec_fields sc m b (VMsg s u []) (VMsg (put s (f_slot f) (match lbl with LOneof => VOneof (f_num f) y | _ => boxed k y end)) u []) [f_num f]) as ONE.
  { intros b x y lbl k Ty Hl -> G Dy. rewrite enc_tagged_eq by assumption. apply fields_one.
    assert (is_tag (tag (f_num f) (wire_of k)) (f_num f) (wire_of k)) as Ht by (apply tag_is; [lia|apply wire_lt]).
    assert (lbl <> LOneof -> slot s (f_slot f) = VNil) as Zn.
    { intros No. rewrite Z0, Ty; [|unfold is_oneof; rewrite Ty; destruct lbl; auto; now destruct No]. destruct lbl; auto; destruct Hl as [|[|]]; discriminate. }
    destruct Hl as [-> |[-> | ->]].
    - eapply dr_present; eauto. unfold merge_into. rewrite Zn by discriminate. assumption.
    - eapply dr_present; eauto. unfold merge_into. rewrite Zn by discriminate. assumption.
    - eapply dr_oneof; eauto. unfold merge_oneof.
      assert (is_oneof f = true) as Of by (unfold is_oneof; now rewrite Ty).
      specialize (Z1 Of). destruct (slot s (f_slot f)); try assumption.
      destruct (num =? f_num f) eqn:E; [|assumption]. apply Z.eqb_eq in E as ->. now destruct (Z1 v0). }
  assert (dec_fields sc m [] (VMsg s u []) (VMsg (put s (f_slot f) (slot s (f_slot f))) u []) []) as NONE
    by (rewrite put_same by assumption; constructor).
  assert (forall lbl k, f_ty f = TField lbl k -> lbl = LOptional \/ lbl = LRequired ->
    (v = VNil \/ (exists x, v = VPtr x /\ (is_num k = true \/ k = KString) /\ wt_elem sc k x) \/
     (is_num k = false /\ k <> KString /\ wt_elem sc k v)) ->
    zlen (match v with VNil => [] | VPtr x => enc_tagged sc re (f_num f) k x | x => enc_tagged sc re (f_num f) k x end) < B ->
    exists y nums, dec_fields sc m (match v with VNil => [] | VPtr x => enc_tagged sc re (f_num f) k x | x => enc_tagged sc re (f_num f) k x end)
        (VMsg s u []) (VMsg (put s (f_slot f) y) u []) nums /\
      sf f v y /\ (is_required f = true -> v <> VNil -> In (f_num f) nums) /\
      (is_oneof f = true -> (forall x, v <> VOneof (f_num f) x) -> y = slot s (f_slot f))) as PRES.
  { intros lbl k Ty Hl T' Z'.
    assert (is_oneof f = false) as Of by (unfold is_oneof; rewrite Ty; now destruct Hl as [-> | ->]).
    assert (slot s (f_slot f) = VNil) as Zs by (rewrite Z0, Ty by assumption; now destruct Hl as [-> | ->]).
    assert (forall y, match lbl with LOneof => VOneof (f_num f) y | _ => boxed k y end = boxed k y) as Eb by (intros; now destruct Hl as [-> | ->]).
    destruct T' as [->|[(x & -> & K & T')|(K1 & K2 & T')]].
    - exists (slot s (f_slot f)), []. split; [exact NONE|]. split; [rewrite Zs; eapply sf_unset; eauto|]. split; [now intros _ []|congruence].
    - assert (is_group k = false) as G' by (destruct K as [K| ->]; [destruct k; auto; discriminate|reflexivity]).
      cbn [vdepth] in D. rewrite enc_tagged_eq in Z' by assumption. rewrite zlen_app in Z'. pose proof (zlen_nonneg (tag (f_num f) (wire_of k))).
      destruct (value_rt k x T' ltac:(lia) G') as (y & Dy & Sy & Ey & Ny & Np).
      { intros m1 E. destruct K as [K| ->]; [destruct k; discriminate|discriminate]. } { lia. }
      exists (VPtr y), [f_num f]. split; [|split; [|split; [intros; now left|congruence]]].
      + replace (VPtr y) with (boxed k y) by (unfold boxed; destruct K as [-> | ->]; reflexivity).
        rewrite <- Eb. apply (ONE _ x y lbl k); tauto.
      + eapply sf_present; eauto; discriminate.
    - destruct (is_nil v) eqn:Nv.
      { destruct v; try discriminate. exists (slot s (f_slot f)), []. split; [exact NONE|]. split; [rewrite Zs; eapply sf_unset; eauto|]. split; [now intros _ []|congruence]. }
      assert (v <> VNil) as Nn by (intros ->; discriminate).
      assert (is_group k = false) as G' by (destruct k; auto; destruct Nn; eapply HG; eauto).
      replace (match v with VNil => [] | VPtr x => enc_tagged sc re (f_num f) k x | x => enc_tagged sc re (f_num f) k x end) with (enc_tagged sc re (f_num f) k v) in *
        by (destruct v; try reflexivity; [now destruct Nn|exfalso; revert T'; apply wt_elem_notptr]).
      rewrite enc_tagged_eq in Z' by assumption. rewrite zlen_app in Z'. pose proof (zlen_nonneg (tag (f_num f) (wire_of k))).
      destruct (value_rt k v T' D G') as (y & Dy & Sy & Ey & Ny & Np).
      { intros m1 E. eapply HS; [eapply holds_set; eauto|assumption]. } { lia. }
      assert (boxed k y = y) as By by (unfold boxed; rewrite K1; destruct k; try reflexivity; now destruct K2).
      exists y, [f_num f]. split; [|split; [|split; [intros; now left|congruence]]].
      + rewrite <- By at 1. rewrite <- Eb. apply (ONE _ v y lbl k); tauto.
      + eapply sf_present; eauto.
        replace (deref v) with v by (destruct v; try reflexivity; exfalso; revert T'; apply wt_elem_notptr).
        replace (deref y) with y; [assumption|]. destruct y; try reflexivity. now destruct (Np y). }
  apply wt_field_inv in T. unfold enc_field in *. unfold wf_type in WT. destruct (f_ty f) as [lbl k|kk vk] eqn:Ty.
  - destruct lbl as [| | |pk|].
    + (* implicit *)
      assert (slot s (f_slot f) = zero_of (TField LImplicit k)) as Zs by (apply Z0; unfold is_oneof; now rewrite Ty).
      destruct (default_value k v) eqn:Dv.
      * exists (slot s (f_slot f)), []. split; [exact NONE|]. split; [|split; [unfold is_required; rewrite Ty; discriminate|auto]].
        rewrite Zs. destruct (is_num k) eqn:N.
        -- destruct (wt_elem_num sc k v N T) as (z & -> & R). replace (zero_of (TField LImplicit k)) with (VInt 0) by (destruct k; try discriminate; reflexivity).
           eapply sf_number; eauto. unfold zero_normal. replace (zero_num k z) with true; [reflexivity|]. destruct k; try discriminate; symmetry; exact Dv.
        -- eapply sf_implicit; eauto. destruct k; try discriminate.
           ++ apply sv_text; [auto|]. cbn in Dv. cbn. destruct (vbytes v); [reflexivity|discriminate].
           ++ destruct (sub_of (KGroup m0)) eqn:E; [|discriminate]. rewrite andb_false_r in WT. discriminate.
           ++ rewrite andb_false_r in WT. discriminate.
           ++ apply sv_text; [auto|]. cbn in Dv. cbn. destruct (vbytes v); [reflexivity|discriminate].
      * assert (sub_of k = None) as Sk by (destruct (sub_of k); [rewrite andb_false_r in WT; discriminate|reflexivity]).
        assert (is_group k = false) as G by (destruct k; auto; discriminate).
        rewrite enc_tagged_eq in * by assumption. rewrite zlen_app in Z. pose proof (zlen_nonneg (tag (f_num f) (wire_of k))).
        destruct (value_rt k v T D G) as (y & Dy & Sy & Ey & Ny & Np); [intros m1 E; congruence|lia|].
        exists y, [f_num f]. split; [|split; [|split; [intros; now left|]]].
        -- apply fields_one. eapply dr_implicit; eauto; [apply tag_is; [lia|apply wire_lt]|].
           replace VNil with (fresh sc k) by (destruct k; try discriminate; reflexivity). exact Dy.
        -- destruct (is_num k) eqn:N.
           ++ rewrite Ey by auto. destruct (wt_elem_num sc k v N T) as (z & -> & R). eapply sf_number; eauto. unfold zero_normal. replace (zero_num k z) with false; [reflexivity|]. destruct k; try discriminate; symmetry; exact Dv.
           ++ eapply sf_implicit; eauto.
        -- unfold is_oneof. rewrite Ty. discriminate.
    + now apply (PRES LOptional k); auto.
    + now apply (PRES LRequired k); auto.
    + (* repeated *)
      assert (is_oneof f = false /\ is_required f = false) as [Of Rf] by (unfold is_oneof, is_required; now rewrite Ty).
      assert (slot s (f_slot f) = VNil) as Zs by (rewrite Z0; auto).
      assert (is_group k = false) as G by (apply andb_true_iff in WT as [_ WT]; apply andb_true_iff in WT as [_ WT]; now apply negb_true_iff in WT).
      assert (exists l, vlist v = l /\ (forall x, In x l -> wt_elem sc k x /\ (vdepth x < n)%nat /\ holds f v k x)) as (l & El & Hl).
      { destruct T as [->|(l & -> & T)]; [exists []; split; [reflexivity|intros ? []]|]. exists l. split; [reflexivity|].
        intros x Hx. split; [auto|]. split; [pose proof (depth_list x l Hx); lia|]. eapply holds_list; eauto. }
      rewrite El in *.
      assert (forall x, In x l -> zlen (enc_value sc re k x) < B -> exists y, dec_value sc k (fresh sc k) (enc_value sc re k x) y /\ sv k x y /\ (is_num k = true -> y = x)) as V.
      { intros x Hx Zx. destruct (Hl x Hx) as (Tx & Dx & Hh). destruct (value_rt k x Tx Dx G) as (y & ? & ? & E & _); eauto 10. }
      destruct pk.
      * (* packed *)
        destruct l as [|x0 l0]; [exists (slot s (f_slot f)), []; split; [exact NONE|]; split; [|split; congruence]|].
        { eapply sf_list; [exact Ty|]. rewrite Zs, El. constructor. }
        set (l := x0 :: l0) in *. rewrite zlen_app in Z. pose proof (zlen_ld (concat (map (enc_value sc re k) l))) as Lq.
        pose proof (zlen_nonneg (tag (f_num f) 2)).
        assert (is_num k = true) as N by (apply andb_true_iff in WT as [_ WT]; now apply andb_true_iff in WT).
        assert (Forall2 (num_wire k) (map (enc_value sc re k) l) (map vint l) /\ Forall2 (sv k) l (map VInt (map vint l))) as [FW FS].
        { clear -Hl N. induction l as [|x l IHl]; [split; constructor|]. destruct IHl as [A1 A2]; [intros; apply Hl; now right|].
          destruct (wt_elem_num sc k x N (proj1 (Hl x (or_introl eq_refl)))) as (z & -> & R).
          split; constructor; auto; [now apply num_wire_enc|]. apply sv_num; [assumption|reflexivity]. }
        exists (VList (map VInt (map vint l))), [f_num f]. split; [|split; [|split; [congruence|congruence]]].
        -- apply fields_one. unfold ld.
           replace (VList (map VInt (map vint l))) with (append (slot s (f_slot f)) (map VInt (map vint l))) by (rewrite Zs; reflexivity).
           eapply dr_packed; eauto; [apply tag_is; lia|]. apply len_is. pose proof (zlen_nonneg (concat (map (enc_value sc re k) l))). lia.
        -- eapply sf_list; [exact Ty|]. rewrite El. exact FS.
      * destruct (list_rt m f false k Hf Ty G l s u Hs) as (ys & nums & Dl & Fl).
        { intros x Hx. destruct (V x Hx) as (y & ? & ? & _); [|eauto].
          pose proof (elem_bound (enc_tagged sc re (f_num f) k) l x Hx) as Lb. rewrite enc_tagged_eq, zlen_app in Lb by assumption.
          pose proof (zlen_nonneg (tag (f_num f) (wire_of k))). lia. }
        exists (append (slot s (f_slot f)) ys), nums. split; [exact Dl|]. split; [|split; congruence].
        eapply sf_list; [exact Ty|]. rewrite El, Zs. destruct ys; exact Fl.
    + (* oneof *)
      assert (is_oneof f = true) as Of by (unfold is_oneof; now rewrite Ty).
      assert (is_required f = false) as Rf by (unfold is_required; now rewrite Ty).
      assert (is_group k = false) as G by (apply andb_true_iff in WT as [_ WT]; now apply negb_true_iff in WT).
      assert ((exists x, v = VOneof (f_num f) x) \/ forall x, v <> VOneof (f_num f) x) as [(x & ->)|No].
      { destruct v; try (right; discriminate). destruct (Z.eq_dec num (f_num f)) as [->|Ne]; [left; eauto|right; intros x [= E _]; contradiction]. }
      * rewrite Z.eqb_refl in *. destruct T as [T|(g & k' & x' & [= En ->] & Hg & Sg & Tg & T)]; [discriminate|].
        assert (f = g) as <- by (eapply wf_num_inj; eauto). rewrite Ty in Tg. injection Tg as <-.
        cbn [vdepth] in D. rewrite enc_tagged_eq in Z by assumption. rewrite zlen_app in Z. pose proof (zlen_nonneg (tag (f_num f) (wire_of k))).
        destruct (value_rt k x' T ltac:(lia) G) as (y & Dy & Sy & Ey & Ny & Np).
        { intros m1 E. eapply HS; [eapply holds_member; exact Ty|assumption]. } { lia. }
        exists (VOneof (f_num f) y), [f_num f]. split; [|split; [|split; [congruence|]]].
        -- apply (ONE _ x' y LOneof k); auto.
        -- eapply sf_member; eauto.
        -- intros _ No. now destruct (No x').
      * exists (slot s (f_slot f)), []. split; [|split; [|split; [congruence|auto]]].
        -- destruct v; try exact NONE. destruct (num =? f_num f) eqn:E; [|exact NONE]. apply Z.eqb_eq in E as ->. now destruct (No v).
        -- eapply sf_other; eauto.
  - (* map *)
    assert (is_oneof f = false /\ is_required f = false) as [Of Rf] by (unfold is_oneof, is_required; now rewrite Ty).
    assert (slot s (f_slot f) = VNil) as Zs by (rewrite Z0; auto).
    rewrite !andb_true_iff in WT. destruct WT as [[Kk _] Gv]. apply negb_true_iff in Gv.
    assert (exists l, vmap v = l /\ NoDup (map fst l) /\ forall e, In e l -> wt_elem sc kk (fst e) /\ wt_elem sc vk (snd e) /\
      (vdepth (fst e) < n)%nat /\ (vdepth (snd e) < n)%nat /\ holds f v vk (snd e)) as (l & El & ND & Hl).
    { destruct T as [->|(l & -> & T1 & T2 & T3)]; [exists []; split; [reflexivity|split; [constructor|intros ? []]]|].
      exists l. split; [reflexivity|]. split; [assumption|]. intros e He. split; [auto|]. split; [auto|].
      pose proof (depth_map e l He). split; [|split; [lia|]].
      - assert (vdepth (fst e) = 0%nat) as ->; [|lia]. pose proof (T1 e He) as Te. inversion Te as [| | | |? ? Ek|? ? ? Ek]; try reflexivity; subst; destruct kk; discriminate.
      - destruct e as [ek ex]. eapply holds_map; eauto. }
    rewrite El in *.
    destruct (map_rt m f kk vk Hf Ty (rev l) s u [] Hs) as (ys & nums & Dl & Fl); rewrite ?Zs; auto.
    + cbn [app]. rewrite map_rev. eapply Permutation_NoDup; [apply Permutation_rev|assumption].
    + intros [ek ex] He. pose proof (elem_bound (enc_entry sc re (f_num f) kk vk) (rev l) _ He) as Lb.
      set (tot := zlen (concat (map (enc_entry sc re (f_num f) kk vk) (rev l)))) in *.
      apply in_rev in He. destruct (Hl _ He) as (T1 & T2 & D1 & D2 & Hh). cbn [fst snd] in *.
      unfold enc_entry in Lb. cbn [fst snd] in Lb. rewrite zlen_app in Lb.
      match type of Lb with _ + zlen (ld ?q) <= _ => pose proof (zlen_ld q) as Lq end.
      rewrite !zlen_app in Lq.
      pose proof (zlen_nonneg (tag (f_num f) 2)). pose proof (zlen_nonneg (tag 1 (wire_of kk))). pose proof (zlen_nonneg (tag 2 (wire_of vk))).
      pose proof (zlen_nonneg (enc_value sc re kk ek)). pose proof (zlen_nonneg (enc_value sc re vk ex)).
      assert (is_group kk = false /\ sub_of kk = None) as [Gk Sk] by (destruct kk; try discriminate; auto).
      destruct (value_rt kk ek T1 D1 Gk) as (yk & Dk & Svk & Ek & _); [intros; congruence|lia|].
      destruct (value_rt vk ex T2 D2 Gv) as (yv & Dv & Svv & _); [intros; eapply HS; eauto|lia|].
      assert (yk = ek) as -> by (apply Ek; destruct kk; try discriminate; auto).
      exists yv. split; [|auto]. replace VNil with (fresh sc kk) by (destruct kk; try discriminate; reflexivity). exact Dk.
    + rewrite Zs in Dl. eexists _, nums. split; [exact Dl|]. split; [|split; congruence].
      eapply (sf_map _ _ _ _ f kk vk v _ (rev l)); [exact Ty|rewrite El; apply Permutation_rev|].
      destruct (rev l) eqn:Er.
      * inversion Fl; subst. constructor.
      * cbn [vmap app]. eapply Forall2_imp; [|exact Fl]. intros a b [[A1 _] A2]. auto.
Qed.

Lemma member_inv f k x y : f_ty f = TField LOneof k -> sf f (VOneof (f_num f) x) y -> exists y', y = VOneof (f_num f) y'.
Proof. 
  intros Ty H. inversion H; subst; try congruence; try (match goal with O : _ \/ _ |- _ => destruct O; congruence end); eauto.
Qed.

(** All fields, one after the other. *)
Lemma fields_rt m s u0 : 
  (forall f, In f (md_fields (md_of sc m)) -> wt_field sc (md_of sc m) f (slot s (f_slot f)) /\ (vdepth (slot s (f_slot f)) < n)%nat /\
     (forall k m1 x, holds f (slot s (f_slot f)) k x -> sub_of k = Some m1 -> decodable sc P m1 x /\ (x <> VNil -> ~ MissingSub sc m1 x)) /\
     (forall l g, f_ty f = TField l (KGroup g) -> slot s (f_slot f) = VNil)) ->
  forall todo done cur, NoDup (done ++ todo) -> (forall f, In f (done ++ todo) -> In f (md_fields (md_of sc m))) ->
  length cur = md_nslots (md_of sc m) ->
  (forall f, In f done -> sf f (slot s (f_slot f)) (slot cur (f_slot f))) ->
  (forall f, In f (md_fields (md_of sc m)) -> ~ In f done -> 
     (is_oneof f = false -> slot cur (f_slot f) = zero_of (f_ty f)) /\
     (is_oneof f = true -> forall x, slot cur (f_slot f) <> VOneof (f_num f) x)) ->
  zlen (concat (map (fun f => enc_field sc re f (slot s (f_slot f))) todo)) < B ->
  exists cur' nums, dec_fields sc m (concat (map (fun f => enc_field sc re f (slot s (f_slot f))) todo)) (VMsg cur u0 []) (VMsg cur' u0 []) nums /\
    length cur' = md_nslots (md_of sc m) /\
    (forall f, In f (done ++ todo) -> sf f (slot s (f_slot f)) (slot cur' (f_slot f))) /\
    (forall f, In f todo -> is_required f = true -> slot s (f_slot f) <> VNil -> In (f_num f) nums).
Proof.
  intros H. induction todo as [|f todo IHt]; intros done cur ND Hin L Hd Hz Zc.
  - exists cur, []. split; [constructor|]. split; [assumption|]. split; [|intros f []]. rewrite app_nil_r. assumption.
  - cbn [map concat] in Zc |- *. rewrite zlen_app in Zc.
    pose proof (zlen_nonneg (enc_field sc re f (slot s (f_slot f)))). pose proof (zlen_nonneg (concat (map (fun f => enc_field sc re f (slot s (f_slot f))) todo))).
    assert (In f (md_fields (md_of sc m))) as Hf by (apply Hin; rewrite in_app_iff; right; now left).
    assert (~ In f done) as Nf by (intros Hi; apply NoDup_remove_2 in ND; apply ND; rewrite in_app_iff; now left).
    destruct (H f Hf) as (T & D & HS & HG). destruct (Hz f Hf Nf) as [Z0 Z1].
    assert (f_slot f < length cur)%nat as Ls by (rewrite L; now apply wf_slot).
    destruct (field_rt m f (slot s (f_slot f)) cur u0 Hf Ls T D HS HG Z0 Z1 ltac:(lia)) as (y & nums & Df & Sf & Rf & Of).
    assert (forall g, In g (md_fields (md_of sc m)) -> g <> f -> f_slot g = f_slot f ->
       y = slot cur (f_slot f) \/ (exists x y' k, slot s (f_slot f) = VOneof (f_num f) x /\ y = VOneof (f_num f) y' /\ f_ty g = TField LOneof k /\ f_num f <> f_num g)) as SH.
    { intros g Hg Ne Es. destruct (wf_compat sc m f g W Hf Hg ltac:(congruence)) as [Nn C]. destruct (C (eq_sym Es)) as [C1 C2].
      assert ((exists x, slot s (f_slot f) = VOneof (f_num f) x) \/ forall x, slot s (f_slot f) <> VOneof (f_num f) x) as [(x & Ex)|No].
      { destruct (slot s (f_slot f)); try (right; discriminate). destruct (Z.eq_dec num (f_num f)) as [->|Nq]; [left; eauto|right; intros x [= E _]; contradiction]. }
      - right. unfold is_oneof in C1, C2. destruct (f_ty f) as [[] k|] eqn:Tf; try discriminate. destruct (f_ty g) as [[] k'|] eqn:Tg; try discriminate.
        rewrite Ex in Sf. destruct (member_inv f k x y Tf Sf) as (y' & ->). eauto 10.
      - left. auto. }
    destruct (IHt (done ++ [f]) (put cur (f_slot f) y)) as (cur' & nums' & D' & L' & S' & R').
    + rewrite <- app_assoc. exact ND.
    + rewrite <- app_assoc. exact Hin.
    + now rewrite put_length.
    + intros g Hg. rewrite in_app_iff in Hg. destruct Hg as [Hg|[<-|[]]]; [|now rewrite put_slot].
      assert (g <> f) as Ne by congruence. assert (In g (md_fields (md_of sc m))) as Hg' by (apply Hin; rewrite in_app_iff; now left).
      destruct (Nat.eq_dec (f_slot f) (f_slot g)) as [Es|Es]; [|rewrite put_other by assumption; auto].
      destruct (SH g Hg' Ne (eq_sym Es)) as [->|(x & y' & k & Ex & -> & Tg & Nn)].
      * rewrite put_same by assumption. auto.
      * rewrite <- Es, put_slot, Ex by assumption. eapply sf_other; eauto; intros ? [= E _]; congruence.
    + intros g Hg Ng. assert (~ In g done /\ g <> f) as [Nd Ne] by (rewrite in_app_iff in Ng; cbn in Ng; split; [tauto|intros ->; tauto]).
      destruct (Hz g Hg Nd) as [Y0 Y1].
      destruct (Nat.eq_dec (f_slot f) (f_slot g)) as [Es|Es]; [|rewrite put_other by assumption; auto].
      destruct (SH g Hg Ne (eq_sym Es)) as [->|(x & y' & k & Ex & -> & Tg & Nn)].
      * rewrite put_same by assumption. auto.
      * rewrite <- Es, put_slot by assumption. split; [unfold is_oneof; rewrite Tg; discriminate|]. intros _ z [= E _]. congruence.
    + lia.
    + exists cur', (nums ++ nums'). split; [eapply fields_app; eauto|]. split; [assumption|]. split.
      * intros g Hg. apply S'. rewrite <- app_assoc. exact Hg.
      * intros g [<-|Hg] Rg Vg; rewrite in_app_iff; [left; auto|right; auto].
Qed.

Lemma unknown_rt m s rs : forall u, md_keep (md_of sc m) = true ->
  Forall (fun r => exists num wt, undeclared sc m num /\ record false num wt r) rs ->
  exists nums, dec_fields sc m (concat rs) (VMsg s u []) (VMsg s (u ++ concat rs) []) nums.
Proof.
  induction rs as [|r rs IHr]; intros u K F; cbn [concat].
  - exists []. rewrite app_nil_r. constructor.
  - inversion F as [|? ? (num & wt & Hu & Hr) F']; subst. destruct (IHr (u ++ r) K F') as (nums & D).
    rewrite <- app_assoc in D. exists (num :: nums). eapply df_cons; [|exact D].
    pose proof (dr_unknown sc m num wt r s u [] Hu Hr) as R. now rewrite K in R.
Qed.

Lemma new_same m : sm m (new_msg (md_of sc m)) (new_msg (md_of sc m)).
Proof. apply new_self; [assumption|]. intros []; reflexivity. Qed.

Lemma body_rt m v : wt_ptrmsg sc m v -> (vdepth v < S n)%nat -> md_foreign (md_of sc m) = false ->
  decodable sc P m v -> ~ MissingRequired sc m v -> zlen (enc_body sc ord re m v) < B ->
  exists v', decodes sc m (enc_body sc ord re m v) (new_msg (md_of sc m)) v' /\ sm m (or_empty sc m v) v'.
Proof.
  intros [->|T] D F DC M Zv.
  - exists (new_msg (md_of sc m)). split; [|apply new_same]. cbn [enc_body]. eapply dec_own; [assumption|constructor|].
    intros f Hf R. pose proof (DC m VNil (in_self sc m VNil)) as H. unfold ok_here in H. rewrite F in H. destruct H as [H _]. rewrite (H eq_refl f Hf) in R. discriminate.
  - inversion T as [m0 s u h Ls HF Bu]; subst. cbn [enc_body or_empty] in *.
    pose proof (DC m (VMsg s u h) (in_self _ _ _)) as H. unfold ok_here in H. rewrite F in H. destruct H as [_ H]. destruct (H s u h eq_refl) as [HU HG]. clear H.
    rewrite zlen_app in Zv. pose proof (zlen_nonneg (if md_keep (md_of sc m) then u else [])).
    destruct (fields_rt m s [] ) with (todo := ord m) (done := @nil fdesc) (cur := zero_slots (md_of sc m)) as (cur & nums & Df & Lc & Sc & Rc).
    + intros f Hf. split; [auto|]. split; [pose proof (depth_slot s (f_slot f) u h); lia|]. split; [|eauto].
      intros k m1 x Hh Sk. split.
      * intros m' y Hw. apply DC. eapply in_sub; eauto.
      * intros Nx Ms. apply M. remember (slot s (f_slot f)) as w eqn:El in Hh. destruct Hh as [f p k l x Ty Hx|f kk k l y x Ty Hx|f l k x Ty Hl Hx|f k x Ty].
        -- eapply miss_in; eauto. rewrite Ty, <- El. now constructor.
        -- eapply miss_in; eauto. rewrite Ty, <- El. now econstructor; eauto.
        -- eapply miss_in; eauto. rewrite Ty, <- El. now constructor.
        -- eapply miss_oneof; eauto.
    + eapply Permutation_NoDup; [symmetry; apply HO|]. eapply NoDup_map_inv, wf_NoDup, W.
    + cbn [app]. intros f Hf. eapply Permutation_in; [apply HO|assumption].
    + unfold zero_slots. now rewrite map_length, seq_length.
    + intros f [].
    + intros f Hf _. rewrite (slot_zero sc m f W Hf). split; [auto|]. intros Of x. unfold is_oneof in Of. destruct (f_ty f) as [[]|]; discriminate.
    + lia.
    + cbn [app] in Sc.
      assert (exists nums', dec_fields sc m (if md_keep (md_of sc m) then u else []) (VMsg cur [] []) (VMsg cur (if md_keep (md_of sc m) then u else []) []) nums') as (nums' & Du).
      { destruct (md_keep (md_of sc m)) eqn:K; [|exists []; constructor]. destruct (HU eq_refl) as (rs & -> & Fr).
        apply (unknown_rt m cur rs [] K Fr). }
      exists (VMsg cur (if md_keep (md_of sc m) then u else []) []). split.
      * eapply dec_own; [assumption|eapply fields_app; eauto|]. intros f Hf R. rewrite in_app_iff. left. apply Rc; [|assumption|].
        -- eapply Permutation_in; [symmetry; apply HO|assumption].
        -- intros Ev. apply M. eapply miss_here; eauto.
      * constructor; [|intros ->; reflexivity]. intros f Hf. apply Sc. eapply Permutation_in; [symmetry; apply HO|assumption].
Qed.
End Level.

Lemma encoding_rt : forall n m v, wt_ptrmsg sc m v -> (vdepth v < n)%nat -> md_foreign (md_of sc m) = false ->
  decodable sc P m v -> ~ MissingRequired sc m v -> zlen (enc_msg sc ord n m v) < B ->
  exists v', decodes sc m (enc_msg sc ord n m v) (new_msg (md_of sc m)) v' /\ sm m (or_empty sc m v) v'.
Proof. induction n as [|n IHn]; [lia|]. intros. cbn [enc_msg] in *. eapply body_rt; eauto. Qed.
End RT.

(** The encoding is a byte string. *)
Lemma concat_bytes {A} (g : A -> list Z) l : (forall x, In x l -> bytes_ok (g x) = true) -> bytes_ok (concat (map g l)) = true.
Proof.
  induction l as [|x l IHl]; intros H; [reflexivity|]. cbn [map concat]. rewrite bytes_ok_app, (H x) by now left.
  apply IHl. intros. apply H. now right.
Qed.
Lemma tag_bytes num wt : 1 <= num -> 0 <= wt -> bytes_ok (tag num wt) = true.
Proof. intros. apply varint_bytes. lia. Qed.
Lemma ld_bytes q : bytes_ok q = true -> bytes_ok (ld q) = true.
Proof. intros H. unfold ld. rewrite bytes_ok_app, varint_bytes by apply zlen_nonneg. exact H. Qed.

Section Bytes.
Variables (sc : schema) (ord : nat -> list fdesc) (P : nat -> val -> val -> Prop).
Hypothesis W : wf_schema sc = true.
Hypothesis HO : forall m, Permutation (ord m) (md_fields (md_of sc m)).
Section Level.
Variable re : nat -> val -> list Z.

Lemma value_bytes k x : wt_elem sc k x -> (forall m, sub_of k = Some m -> bytes_ok (enc_sub sc re m x) = true) ->
  bytes_ok (enc_value sc re k x) = true.
Proof.
  intros T S. destruct k; cbn [enc_value]; try apply le_bytes_ok; try (apply varint_bytes; apply Z.mod_pos_bound; lia);
    try (apply varint_bytes; unfold zz; destruct (vint x <? 0) eqn:E; lia); try (destruct (vint x =? 0); reflexivity).
  - apply ld_bytes. inversion T; subst; try discriminate; assumption.
  - now apply S.
  - apply ld_bytes. now apply S.
  - apply ld_bytes. inversion T; subst; try discriminate; first [assumption|reflexivity].
Qed.

Lemma tagged_bytes num k x : 1 <= num -> wt_elem sc k x -> (forall m, sub_of k = Some m -> bytes_ok (enc_sub sc re m x) = true) ->
  bytes_ok (enc_tagged sc re num k x) = true.
Proof.
  intros Hn T S. destruct (is_group k) eqn:G.
  - destruct k; try discriminate. cbn [enc_tagged]. rewrite !bytes_ok_app, !tag_bytes, (S m eq_refl) by lia. reflexivity.
  - replace (enc_tagged sc re num k x) with (tag num (wire_of k) ++ enc_value sc re k x) by (destruct k; try reflexivity; discriminate).
    pose proof (wire_lt k). rewrite bytes_ok_app, tag_bytes, value_bytes by (assumption || lia). reflexivity.
Qed.

Lemma field_bytes m f v : In f (md_fields (md_of sc m)) -> wt_field sc (md_of sc m) f v ->
  (forall k m1 x, holds f v k x -> sub_of k = Some m1 -> wt_ptrmsg sc m1 x -> bytes_ok (enc_sub sc re m1 x) = true) ->
  bytes_ok (enc_field sc re f v) = true.
Proof.
  intros Hf T H. pose proof (wf_num sc m f W Hf) as Hn. pose proof (wf_ty sc m f W Hf) as WT. apply wt_field_inv in T.
  assert (forall k x, wt_elem sc k x -> holds f v k x -> forall m1, sub_of k = Some m1 -> bytes_ok (enc_sub sc re m1 x) = true) as HH.
  { intros k x Tx Hh m1 Sk. eapply H; eauto. eapply wt_elem_sub; eauto. }
  unfold enc_field. unfold wf_type in WT. destruct (f_ty f) as [lbl k|kk vk] eqn:Ty.
  - destruct lbl as [| | |pk|].
    + destruct (default_value k v); [reflexivity|]. apply tagged_bytes; [lia|assumption|]. intros m1 Sk. rewrite Sk, andb_false_r in WT. discriminate.
    + destruct T as [->|[(x & -> & K & T)|(K1 & K2 & T)]]; [reflexivity| |].
      * apply tagged_bytes; [lia|assumption|]. intros m1 Sk. destruct K as [K| ->]; [destruct k; discriminate|discriminate].
      * destruct (is_nil v) eqn:Nv; [destruct v; try discriminate; reflexivity|].
        assert (bytes_ok (enc_tagged sc re (f_num f) k v) = true) as Q.
        { apply tagged_bytes; [lia|assumption|]. intros m1 Sk. eapply HH; eauto. eapply holds_set; eauto. intros ->; discriminate. }
        destruct v; auto. exfalso. revert T. apply wt_elem_notptr.
    + destruct T as [->|[(x & -> & K & T)|(K1 & K2 & T)]]; [reflexivity| |].
      * apply tagged_bytes; [lia|assumption|]. intros m1 Sk. destruct K as [K| ->]; [destruct k; discriminate|discriminate].
      * destruct (is_nil v) eqn:Nv; [destruct v; try discriminate; reflexivity|].
        assert (bytes_ok (enc_tagged sc re (f_num f) k v) = true) as Q.
        { apply tagged_bytes; [lia|assumption|]. intros m1 Sk. eapply HH; eauto. eapply holds_set; eauto. intros ->; discriminate. }
        destruct v; auto. exfalso. revert T. apply wt_elem_notptr.
    + assert (forall x, In x (vlist v) -> wt_elem sc k x /\ holds f v k x) as Hl.
      { destruct T as [->|(l & -> & T)]; [intros ? []|]. intros x Hx. split; [auto|]. eapply holds_list; eauto. }
      destruct pk.
      * destruct (vlist v) as [|x0 l0] eqn:E; [reflexivity|]. rewrite bytes_ok_app, tag_bytes by lia.
        apply ld_bytes, concat_bytes. intros x Hx. destruct (Hl x Hx). apply value_bytes; eauto.
      * apply concat_bytes. intros x Hx. destruct (Hl x Hx). apply tagged_bytes; eauto. lia.
    + destruct T as [->|(g & k' & x & -> & Hg & Sg & Tg & T)]; [reflexivity|].
      destruct (f_num g =? f_num f) eqn:E; [|reflexivity]. apply Z.eqb_eq in E.
      assert (g = f) as -> by (eapply wf_num_inj; eauto). rewrite Ty in Tg. injection Tg as <-.
      apply tagged_bytes; [lia|assumption|]. intros m1 Sk. eapply HH; eauto. eapply holds_member; eauto.
  - rewrite !andb_true_iff in WT. destruct WT as [[Kk _] _].
    assert (forall e, In e (vmap v) -> wt_elem sc kk (fst e) /\ wt_elem sc vk (snd e) /\ holds f v vk (snd e)) as Hl.
    { destruct T as [->|(l & -> & T1 & T2 & T3)]; [intros ? []|]. intros [ek ex] He. split; [apply (T1 _ He)|]. split; [apply (T2 _ He)|]. eapply holds_map; eauto. }
    apply concat_bytes. intros e He. rewrite <- in_rev in He. destruct (Hl e He) as (T1 & T2 & Hh).
    unfold enc_entry. rewrite bytes_ok_app, tag_bytes by lia. apply ld_bytes. pose proof (wire_lt kk). pose proof (wire_lt vk).
    rewrite !bytes_ok_app, !tag_bytes, !value_bytes by (eauto; try lia; intros m1 Sk; destruct kk; discriminate). reflexivity.
Qed.
End Level.

Lemma enc_bytes n : forall m v, wt_ptrmsg sc m v -> md_foreign (md_of sc m) = false -> decodable sc P m v ->
  bytes_ok (enc_msg sc ord n m v) = true.
Proof.
  induction n as [|n IHn]; intros m v T F DC; [reflexivity|]. cbn [enc_msg]. destruct T as [->|T]; [reflexivity|].
  inversion T as [m0 s u h Ls HF Bu]; subst. cbn [enc_body]. rewrite bytes_ok_app. apply andb_true_iff. split.
  - apply concat_bytes. intros f Hf. assert (In f (md_fields (md_of sc m))) as Hf' by (eapply Permutation_in; [apply HO|assumption]).
    apply (field_bytes _ m); auto. intros k m1 x Hh Sk Tx. unfold enc_sub.
    assert (decodable sc P m1 x) as Dx by (intros m' y Hw; apply DC; eapply in_sub; eauto).
    destruct (md_foreign (md_of sc m1)) eqn:F1; [|auto].
    pose proof (Dx m1 x (in_self sc m1 x)) as Ho. unfold ok_here in Ho. rewrite F1 in Ho. apply Ho.
  - destruct (md_keep _); [assumption|reflexivity].
Qed.
End Bytes.
