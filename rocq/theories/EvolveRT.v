(** What an older program writes, a newer one decodes. *)
From Coq Require Import ZArith List Bool Lia Permutation.
From Verif Require Import Base BaseFacts Schema Value WireSpec Typing RecordSpec MsgSpec DecodeSpec ContentSpec EvolveSpec
  VarintFacts NumFacts MarshalFacts DecodeFacts TargetFacts SameFacts RoundTrip EvolveFacts.
Import ListNotations.
Open Scope Z_scope.

Lemma Forall2_in_l {A C} (R : A -> C -> Prop) l l' a : Forall2 R l l' -> In a l -> exists b, In b l' /\ R a b.
Proof. induction 1; intros []; subst; eauto using in_eq. destruct (IHForall2 H1) as (b & ? & ?). eauto using in_cons. Qed.
Lemma Forall2_with {A C} (R Q : A -> C -> Prop) l l' : (forall a b, In a l -> In b l' -> R a b -> Q a b) -> Forall2 R l l' -> Forall2 Q l l'.
Proof. intros H F. induction F; constructor; auto using in_eq. apply IHF. intros. apply H; auto using in_cons. Qed.
Lemma Forall2_turn {A C} (R : A -> C -> Prop) l l' : Forall2 R l l' -> Forall2 R (rev l) (rev l').
Proof. induction 1; cbn; [constructor|]. apply Forall2_app; auto. Qed.

Section RT.
Variables so sn : schema.
Variable ord : nat -> list fdesc.
Variable P : nat -> val -> val -> Prop.
Hypothesis Wo : wf_schema so = true.
Hypothesis Wn : wf_schema sn = true.
Hypothesis O : older so sn.
Hypothesis HO : forall m, Permutation (ord m) (md_fields (md_of so m)).
Hypothesis UD : up_dec_ok sn.
Hypothesis PRF : forall m x, md_foreign (md_of sn m) = true -> P m x x.
Notation B := 9223372036854775800.
Notation sv := (same_value sn same_bits zero_lax P).
Notation sf := (same_field sn same_bits zero_lax P).
Notation sm := (same_msg sn same_bits zero_lax P).
Notation repv := (repv so sn). Notation repf := (repf so sn). Notation rep := (rep so sn).
Notation oldf m := (md_fields (md_of so m)).
Notation newf m := (md_fields (md_of sn m)).

Section Level.
Variable n : nat.
Notation re := (enc_msg so ord n).
Hypothesis IH : forall m a x, wt_ptrmsg so m a -> (vdepth a < n)%nat -> md_foreign (md_of so m) = false ->
  decodable so P m a -> ~ MissingRequired so m a -> zlen (re m a) < B -> repv (KMessage m) a x -> wt_ptrmsg sn m x ->
  exists y, decodes sn m (re m a) (new_msg (md_of sn m)) y /\ sm m (or_empty sn m x) y.

Lemma value_rt k a x : wt_elem so k a -> (vdepth a < n)%nat -> is_group k = false ->
  (forall m, sub_of k = Some m -> decodable so P m a /\ (a <> VNil -> ~ MissingSub so m a)) ->
  zlen (enc_value so re k a) < B -> repv k a x -> wt_elem sn k x ->
  exists y, dec_value sn k (fresh sn k) (enc_value so re k a) y /\ sv k x y /\
    (is_num k = true \/ k = KString -> y = x) /\ y <> VNil /\ (forall z, y <> VPtr z).
Proof.
  intros T D G S Z R TX. destruct (is_num k) eqn:N.
  { assert (a = x) as <- by (eapply repv_same; eauto; destruct k; try discriminate; reflexivity).
    destruct (wt_elem_num so k a N T) as (z & -> & Rg). exists (VInt z). split; [|split; [|split; [auto|split; discriminate]]].
    - apply dv_num. now apply num_wire_enc.
    - apply sv_num; [assumption|reflexivity]. }
  destruct (sub_of k) as [m|] eqn:Sk.
  - destruct k; try discriminate. cbn in Sk. injection Sk as ->. destruct (S m eq_refl) as [Dx Mx].
    assert (wt_ptrmsg so m a) as Tx by (eapply wt_elem_sub; eauto; reflexivity).
    cbn [enc_value] in *. pose proof (zlen_ld (enc_sub so re m a)) as Lq.
    assert (exists y, decodes sn m (enc_sub so re m a) (new_msg (md_of sn m)) y /\ sv (KMessage m) x y /\ y <> VNil /\ forall z, y <> VPtr z) as (y & Dy & Sy & Ny & Np).
    { unfold enc_sub in *. destruct (md_foreign (md_of so m)) eqn:F.
      - pose proof (Dx m a (in_self so m a)) as Ho. unfold ok_here in Ho. rewrite F in Ho. destruct Ho as (_ & y & Ey & Py). exists y.
        rewrite (old_foreign _ _ O) in F. apply (repv_up so sn Wo Wn) in R; [|assumption]. subst x. rewrite (old_up _ _ O) in *.
        destruct (up_dec_wt sn UD m _ _ F Ey) as [Wy _]. inversion Wy; subst.
        split; [now apply dec_up|]. split; [|split; discriminate].
        eapply sv_up; [reflexivity|assumption|]. unfold or_empty in *. now rewrite (old_same _ _ O m F) in Py.
      - destruct (IH m a x Tx D F Dx) as (y & Dy & Sy); auto.
        + intros M. destruct a; try (apply (Mx ltac:(discriminate)); now apply miss_own). inversion M.
        + lia.
        + eapply wt_elem_sub; eauto; reflexivity.
        + exists y. split; [assumption|]. inversion Sy; subst. split; [|split; discriminate].
          eapply sv_msg; [reflexivity|now rewrite <- (old_foreign _ _ O)|exact Sy]. }
    exists y. split; [|split; [assumption|split; [intros [|]; discriminate|split; assumption]]].
    apply dv_msg; [|assumption]. apply len_is. pose proof (zlen_nonneg (enc_sub so re m a)). lia.
  - apply repv_same in R; [|assumption]. subst x.
    destruct k; try discriminate; cbn [enc_value] in *; pose proof (zlen_ld (vbytes a)); pose proof (zlen_nonneg (vbytes a)).
    + inversion T as [| s | | | |]; subst; try discriminate. exists (VStr s). split; [|split; [|split; [auto|split; discriminate]]].
      * apply dv_str, len_is. cbn in *. lia.
      * apply sv_text; auto.
    + exists (VBytes (vbytes a)). split; [|split; [|split; [intros [|]; discriminate|split; discriminate]]].
      * apply dv_bytes, len_is. lia.
      * apply sv_text; auto.
Qed.

Lemma enc_tagged_eq num k x : is_group k = false -> enc_tagged so re num k x = tag num (wire_of k) ++ enc_value so re k x.
Proof. destruct k; try reflexivity. discriminate. Qed.

(** List elements, one record each. *)
Lemma list_rt m f p k : In f (newf m) -> f_ty f = TField (LRepeated p) k -> is_group k = false ->
  forall l lx, Forall2 (fun a x => exists y, dec_value sn k (fresh sn k) (enc_value so re k a) y /\ sv k x y) l lx ->
  forall s u, (f_slot f < length s)%nat ->
  exists ys nums, dec_fields sn m (concat (map (enc_tagged so re (f_num f) k) l)) (VMsg s u [])
      (VMsg (put s (f_slot f) (append (slot s (f_slot f)) ys)) u []) nums /\ Forall2 (sv k) lx ys.
Proof.
  intros Hf Ty G. induction 1 as [|a x l lx (y & Dy & Sy) V IHl]; intros s u Hs.
  - exists [], []. cbn [append]. rewrite put_same by assumption. split; constructor.
  - destruct (IHl (put s (f_slot f) (append (slot s (f_slot f)) [y])) u) as (ys & nums & D & F).
    { rewrite put_length by assumption. assumption. }
    rewrite put_slot, put_put, append_app in D by assumption.
    exists (y :: ys), (f_num f :: nums). split; [|now constructor].
    cbn [map concat]. eapply df_cons; [|exact D]. rewrite enc_tagged_eq by assumption.
    eapply dr_repeated; eauto.
    + apply tag_is; [now apply (wf_num sn m)|apply wire_lt].
    + intros _. now destruct (f_slot f).
Qed.

(** Map entries. *)
Lemma map_rt m f kk vk : In f (newf m) -> f_ty f = TMap kk vk ->
  forall l lx, Forall2 (fun e e' => fst e = fst e' /\ exists y, dec_value sn kk VNil (enc_value so re kk (fst e)) (fst e) /\ sv kk (fst e) (fst e) /\
     dec_value sn vk (fresh sn vk) (enc_value so re vk (snd e)) y /\ sv vk (snd e') y) l lx ->
  forall s u l0, (f_slot f < length s)%nat -> vmap (slot s (f_slot f)) = l0 ->
  (slot s (f_slot f) = VNil \/ slot s (f_slot f) = VMap l0) ->
  NoDup (map fst (l0 ++ l)) ->
  zlen (concat (map (enc_entry so re (f_num f) kk vk) l)) < B ->
  exists ys nums, dec_fields sn m (concat (map (enc_entry so re (f_num f) kk vk) l)) (VMsg s u [])
      (VMsg (put s (f_slot f) (match l with [] => slot s (f_slot f) | _ => VMap (l0 ++ ys) end)) u []) nums /\
    Forall2 (fun e e' => sv kk (fst e) (fst e') /\ sv vk (snd e) (snd e')) lx ys.
Proof.
  intros Hf Ty. induction 1 as [|[k a] [k' x] l lx [Ek (y & Dk & Sk & Dy & Sy)] V IHl]; intros s u l0 Hs El Hn ND Z.
  - exists [], []. cbn [map concat]. rewrite put_same by assumption. split; constructor.
  - cbn [fst snd] in *. subst k'.
    cbn [map concat] in Z. rewrite zlen_app in Z.
    destruct (IHl (put s (f_slot f) (VMap (l0 ++ [(k, y)]))) u (l0 ++ [(k, y)])) as (ys & nums & D & F).
    { rewrite put_length by assumption. assumption. }
    { rewrite put_slot by assumption. reflexivity. }
    { right. now rewrite put_slot by assumption. }
    { rewrite <- app_assoc. rewrite !map_app in *. exact ND. }
    { pose proof (zlen_nonneg (enc_entry so re (f_num f) kk vk (k, a))). lia. }
    exists ((k, y) :: ys), (f_num f :: nums). split; [|constructor; auto].
    assert (match l with [] => slot (put s (f_slot f) (VMap (l0 ++ [(k, y)]))) (f_slot f) | _ => VMap ((l0 ++ [(k, y)]) ++ ys) end
            = VMap (l0 ++ (k, y) :: ys)) as Ev.
    { destruct l; [inversion V; subst; inversion F; subst|rewrite <- app_assoc; reflexivity]. now rewrite put_slot. }
    rewrite Ev, put_put in D by assumption.
    cbn [map concat]. eapply df_cons; [|exact D]. unfold enc_entry. cbn [fst snd]. unfold ld.
    set (b := tag 1 (wire_of kk) ++ enc_value so re kk k ++ tag 2 (wire_of vk) ++ enc_value so re vk a) in *.
    assert (zlen b < B) as Zb.
    { assert (zlen b <= zlen (enc_entry so re (f_num f) kk vk (k, a))) as L.
      { unfold enc_entry. cbn [fst snd]. fold b. rewrite zlen_app. pose proof (zlen_ld b). pose proof (zlen_nonneg (tag (f_num f) 2)). lia. }
      pose proof (zlen_nonneg (concat (map (enc_entry so re (f_num f) kk vk) l))). lia. }
    apply (dr_map sn m f kk vk _ _ b (Some k) (Some y)); auto.
    + apply tag_is; [now apply (wf_num sn m)|lia].
    + apply len_is. pose proof (zlen_nonneg b). lia.
    + unfold b. apply de_key; [apply tag_is; [lia|apply wire_lt]|exact Dk|].
      rewrite <- (app_nil_r (enc_value so re vk a)). apply de_value; [apply tag_is; [lia|apply wire_lt]|exact Dy|constructor].
    + rewrite El. apply mp_new. rewrite map_app in ND. cbn [map fst] in ND. apply NoDup_remove_2 in ND.
      intros Hi. apply ND. rewrite in_app_iff. now left.
Qed.

(** One field. *)
Lemma field_rt m f v x s u : In f (oldf m) -> (f_slot f < length s)%nat ->
  wt_field so (md_of so m) f v -> (vdepth v < n)%nat -> repf m f v x -> wt_field sn (md_of sn m) f x ->
  (forall k m1 y, holds f v k y -> sub_of k = Some m1 -> decodable so P m1 y /\ (y <> VNil -> ~ MissingSub so m1 y)) ->
  (forall l g, f_ty f = TField l (KGroup g) -> v = VNil) ->
  (is_oneof f = false -> slot s (f_slot f) = zero_of (f_ty f)) ->
  (is_oneof f = true -> forall y, slot s (f_slot f) <> VOneof (f_num f) y) ->
  zlen (enc_field so re f v) < B ->
  exists y nums, dec_fields sn m (enc_field so re f v) (VMsg s u []) (VMsg (put s (f_slot f) y) u []) nums /\
    sf f x y /\ (is_required f = true -> v <> VNil -> In (f_num f) nums) /\
    (is_oneof f = true -> (forall z, x <> VOneof (f_num f) z) -> y = slot s (f_slot f)).
Proof.
  intros Hfo Hs T D R TX HS HG Z0 Z1 Z. pose proof (old_fields _ _ O m f Hfo) as Hf.
  pose proof (wf_num sn m f Wn Hf) as Hn. pose proof (wf_ty sn m f Wn Hf) as WT.
  assert (forall b z y lbl k, f_ty f = TField lbl k -> (lbl = LOptional \/ lbl = LRequired \/ lbl = LOneof) ->
    b = enc_tagged so re (f_num f) k z -> is_group k = false -> dec_value sn k (fresh sn k) (enc_value so re k z) y ->
    dec_fields sn m b (VMsg s u []) (VMsg (put s (f_slot f) (match lbl with LOneof => VOneof (f_num f) y | _ => boxed k y end)) u []) [f_num f]) as ONE.
  { intros b z y lbl k Ty Hl -> G Dy. rewrite enc_tagged_eq by assumption. apply fields_one.
    assert (is_tag (tag (f_num f) (wire_of k)) (f_num f) (wire_of k)) as Ht by (apply tag_is; [lia|apply wire_lt]).
    assert (lbl <> LOneof -> slot s (f_slot f) = VNil) as Zn.
    { intros No. rewrite Z0, Ty; [|unfold is_oneof; rewrite Ty; destruct lbl; auto; now destruct No]. destruct lbl; auto; destruct Hl as [|[|]]; discriminate. }
    destruct Hl as [-> |[-> | ->]].
    - eapply dr_present; eauto. unfold merge_into. rewrite Zn by discriminate. assumption.
    - eapply dr_present; eauto. unfold merge_into. rewrite Zn by discriminate. assumption.
    - eapply dr_oneof; eauto. unfold merge_oneof.
      assert (is_oneof f = true) as Of by (unfold is_oneof; now rewrite Ty).
      specialize (Z1 Of). destruct (slot s (f_slot f)); try assumption.
      destruct (num =? f_num f) eqn:E; [|assumption]. apply Z.eqb_eq in E as ->. now destruct (Z1 v0). }
  assert (dec_fields sn m [] (VMsg s u []) (VMsg (put s (f_slot f) (slot s (f_slot f))) u []) []) as NONE
    by (rewrite put_same by assumption; constructor).
  assert (forall lbl k, f_ty f = TField lbl k -> lbl = LOptional \/ lbl = LRequired ->
    (v = VNil \/ (exists z, v = VPtr z /\ (is_num k = true \/ k = KString) /\ wt_elem so k z) \/
     (is_num k = false /\ k <> KString /\ wt_elem so k v)) ->
    (x = VNil \/ (exists z, x = VPtr z /\ (is_num k = true \/ k = KString) /\ wt_elem sn k z) \/
     (is_num k = false /\ k <> KString /\ wt_elem sn k x)) ->
    (v = VNil /\ x = VNil \/ (exists z, v = VPtr z /\ x = VPtr z) \/ (v <> VNil /\ x <> VNil /\ is_num k = false /\ k <> KString /\ repv k v x)) ->
    zlen (match v with VNil => [] | VPtr z => enc_tagged so re (f_num f) k z | z => enc_tagged so re (f_num f) k z end) < B ->
    exists y nums, dec_fields sn m (match v with VNil => [] | VPtr z => enc_tagged so re (f_num f) k z | z => enc_tagged so re (f_num f) k z end)
        (VMsg s u []) (VMsg (put s (f_slot f) y) u []) nums /\
      sf f x y /\ (is_required f = true -> v <> VNil -> In (f_num f) nums) /\
      (is_oneof f = true -> (forall z, x <> VOneof (f_num f) z) -> y = slot s (f_slot f))) as PRES.
  { intros lbl k Ty Hl T' TX' R' Z'.
    assert (is_oneof f = false) as Of by (unfold is_oneof; rewrite Ty; now destruct Hl as [-> | ->]).
    assert (slot s (f_slot f) = VNil) as Zs by (rewrite Z0, Ty by assumption; now destruct Hl as [-> | ->]).
    assert (forall y, match lbl with LOneof => VOneof (f_num f) y | _ => boxed k y end = boxed k y) as Eb by (intros; now destruct Hl as [-> | ->]).
    destruct R' as [[-> ->]|[(z & -> & ->)|(Nv & Nx & K1 & K2 & Rk)]].
    - exists (slot s (f_slot f)), []. split; [exact NONE|]. split; [rewrite Zs; eapply sf_unset; eauto|]. split; [now intros _ []|congruence].
    - destruct T' as [Q|[(z' & Q & K & T')|(_ & _ & T')]]; [discriminate| |exfalso; revert T'; apply wt_elem_notptr]. injection Q as <-.
      destruct TX' as [Q|[(z' & Q & _ & TX')|(_ & _ & TX')]]; [discriminate| |exfalso; revert TX'; apply wt_elem_notptr]. injection Q as <-.
      assert (is_group k = false) as G' by (destruct K as [K| ->]; [destruct k; auto; discriminate|reflexivity]).
      assert (sub_of k = None) as Sk by (destruct K as [K| ->]; [destruct k; auto; discriminate|reflexivity]).
      cbn [vdepth] in D. rewrite enc_tagged_eq in Z' by assumption. rewrite zlen_app in Z'. pose proof (zlen_nonneg (tag (f_num f) (wire_of k))).
      destruct (value_rt k z z T' ltac:(lia) G') as (y & Dy & Sy & Ey & Ny & Np).
      { intros m1 E. congruence. } { lia. } { now apply rv_same. } { assumption. }
      exists (VPtr y), [f_num f]. split; [|split; [|split; [intros; now left|congruence]]].
      + replace (VPtr y) with (boxed k y) by (unfold boxed; destruct K as [-> | ->]; reflexivity).
        rewrite <- Eb. apply (ONE _ z y lbl k); tauto.
      + eapply sf_present; eauto; discriminate.
    - destruct T' as [->|[(z & -> & K & T')|(_ & _ & T')]]; [congruence|destruct K; congruence|].
      destruct TX' as [->|[(z & -> & K & TX')|(_ & _ & TX')]]; [congruence|destruct K; congruence|].
      assert (is_group k = false) as G' by (destruct k; auto; destruct Nv; eapply HG; eauto).
      replace (match v with VNil => [] | VPtr z => enc_tagged so re (f_num f) k z | z => enc_tagged so re (f_num f) k z end) with (enc_tagged so re (f_num f) k v) in *
        by (destruct v; try reflexivity; [now destruct Nv|exfalso; revert T'; apply wt_elem_notptr]).
      rewrite enc_tagged_eq in Z' by assumption. rewrite zlen_app in Z'. pose proof (zlen_nonneg (tag (f_num f) (wire_of k))).
      destruct (value_rt k v x T' D G') as (y & Dy & Sy & Ey & Ny & Np).
      { intros m1 E. eapply HS; [eapply holds_set; eauto|assumption]. } { lia. } { assumption. } { assumption. }
      assert (boxed k y = y) as By by (unfold boxed; rewrite K1; destruct k; try reflexivity; now destruct K2).
      exists y, [f_num f]. split; [|split; [|split; [intros; now left|congruence]]].
      + rewrite <- By at 1. rewrite <- Eb. apply (ONE _ v y lbl k); tauto.
      + eapply sf_present; eauto.
        replace (deref x) with x.
        2:{ destruct x; try reflexivity. exfalso. inversion Rk; subst.
            - revert T'; apply wt_elem_notptr.
            - revert T'; apply wt_elem_notptr.
            - match goal with H : EvolveFacts.rep _ _ _ _ (VPtr _) |- _ => inversion H end. }
        replace (deref y) with y; [assumption|]. destruct y; try reflexivity. now destruct (Np y). }
  apply wt_field_inv in T. apply wt_field_inv in TX. unfold enc_field in *. unfold wf_type in WT. destruct (f_ty f) as [lbl k|kk vk] eqn:Ty.
  - assert (lbl = LOptional \/ lbl = LRequired -> v = VNil /\ x = VNil \/ (exists z, v = VPtr z /\ x = VPtr z) \/ (v <> VNil /\ x <> VNil /\ is_num k = false /\ k <> KString /\ repv k v x)) as PR.
    { intros Hl. inversion R as [? ? k' ? Q|? ? ? ? Q|? ? ? ? z Q|? ? ? k' ? ? Q ? ? ? ? ? Rk|? ? ? ? ? ? Q| |? ? ? Q|]; subst; try congruence; try (rewrite Ty in Q; destruct Hl; congruence); eauto.
      - right. right. rewrite Ty in Q. injection Q as <- <-. auto.
      - destruct Hl; congruence. }
    destruct lbl as [| | |pk|].
    + (* implicit *)
      assert (v = x) as <-. { inversion R; subst; try congruence; match goal with H : _ \/ _ |- _ => destruct H; congruence end. }
      assert (slot s (f_slot f) = zero_of (TField LImplicit k)) as Zs by (apply Z0; unfold is_oneof; now rewrite Ty).
      destruct (default_value k v) eqn:Dv.
      * exists (slot s (f_slot f)), []. split; [exact NONE|]. split; [|split; [unfold is_required; rewrite Ty; discriminate|auto]].
        rewrite Zs. destruct (is_num k) eqn:N.
        -- destruct (wt_elem_num so k v N T) as (z & -> & Rg). replace (zero_of (TField LImplicit k)) with (VInt 0) by (destruct k; try discriminate; reflexivity).
           eapply sf_number; eauto. right. split; [|reflexivity]. destruct k; try discriminate; exact Dv.
        -- eapply sf_implicit; eauto. destruct k; try discriminate.
           ++ apply sv_text; [auto|]. cbn in Dv. cbn. destruct (vbytes v); [reflexivity|discriminate].
           ++ destruct (sub_of (KGroup m0)) eqn:E; [|discriminate]. rewrite andb_false_r in WT. discriminate.
           ++ rewrite andb_false_r in WT. discriminate.
           ++ apply sv_text; [auto|]. cbn in Dv. cbn. destruct (vbytes v); [reflexivity|discriminate].
      * assert (sub_of k = None) as Sk by (destruct (sub_of k); [rewrite andb_false_r in WT; discriminate|reflexivity]).
        assert (is_group k = false) as G by (destruct k; auto; discriminate).
        rewrite enc_tagged_eq in * by assumption. rewrite zlen_app in Z. pose proof (zlen_nonneg (tag (f_num f) (wire_of k))).
        destruct (value_rt k v v T D G) as (y & Dy & Sy & Ey & Ny & Np); [intros m1 E; congruence|lia|now apply rv_same|assumption|].
        exists y, [f_num f]. split; [|split; [|split; [intros; now left|]]].
        -- apply fields_one. eapply dr_implicit; eauto; [apply tag_is; [lia|apply wire_lt]|].
           replace VNil with (fresh sn k) by (destruct k; try discriminate; reflexivity). exact Dy.
        -- destruct (is_num k) eqn:N.
           ++ rewrite Ey by auto. destruct (wt_elem_num so k v N T) as (z & -> & Rg). eapply sf_number; eauto. now left.
           ++ eapply sf_implicit; eauto.
        -- unfold is_oneof. rewrite Ty. discriminate.
    + now apply (PRES LOptional k); auto.
    + now apply (PRES LRequired k); auto.
    + (* repeated *)
      assert (is_oneof f = false /\ is_required f = false) as [Of Rf] by (unfold is_oneof, is_required; now rewrite Ty).
      assert (slot s (f_slot f) = VNil) as Zs by (rewrite Z0; auto).
      assert (is_group k = false) as G by (apply andb_true_iff in WT as [_ WT]; apply andb_true_iff in WT as [_ WT]; now apply negb_true_iff in WT).
      assert (Forall2 (repv k) (vlist v) (vlist x)) as Rl.
      { inversion R; subst; try congruence; match goal with H : _ \/ _ |- _ => destruct H; congruence end. }
      assert (exists l, vlist v = l /\ (forall z, In z l -> wt_elem so k z /\ (vdepth z < n)%nat /\ holds f v k z)) as (l & El & Hl).
      { destruct T as [->|(l & -> & T)]; [exists []; split; [reflexivity|intros ? []]|]. exists l. split; [reflexivity|].
        intros z Hz. split; [auto|]. split; [pose proof (depth_list z l Hz); lia|]. eapply holds_list; eauto. }
      assert (forall z, In z (vlist x) -> wt_elem sn k z) as HX by (destruct TX as [->|(lx & -> & TX)]; [intros ? []|exact TX]).
      rewrite El in *.
      destruct pk.
      * (* packed *)
        assert (is_num k = true) as N by (apply andb_true_iff in WT as [_ WT]; now apply andb_true_iff in WT).
        assert (vlist x = l) as Ex.
        { clear -Rl N. induction Rl as [|a b l l' E F IHl]; [reflexivity|]. f_equal; [|assumption]. symmetry. eapply repv_same; eauto. destruct k; try discriminate; reflexivity. }
        destruct l as [|x0 l0]; [exists (slot s (f_slot f)), []; split; [exact NONE|]; split; [|split; congruence]|].
        { eapply sf_list; [exact Ty|]. rewrite Zs, Ex. constructor. }
        set (l := x0 :: l0) in *. rewrite zlen_app in Z. pose proof (zlen_ld (concat (map (enc_value so re k) l))) as Lq.
        pose proof (zlen_nonneg (tag (f_num f) 2)).
        assert (Forall2 (num_wire k) (map (enc_value so re k) l) (map vint l) /\ Forall2 (sv k) l (map VInt (map vint l))) as [FW FS].
        { clear -Hl N. induction l as [|z l IHl]; [split; constructor|]. destruct IHl as [A1 A2]; [intros; apply Hl; now right|].
          destruct (wt_elem_num so k z N (proj1 (Hl z (or_introl eq_refl)))) as (z' & -> & Rg).
          split; constructor; auto; [now apply num_wire_enc|]. apply sv_num; [assumption|reflexivity]. }
        exists (VList (map VInt (map vint l))), [f_num f]. split; [|split; [|split; [congruence|congruence]]].
        -- apply fields_one. unfold ld.
           replace (VList (map VInt (map vint l))) with (append (slot s (f_slot f)) (map VInt (map vint l))) by (rewrite Zs; reflexivity).
           eapply dr_packed; eauto; [apply tag_is; lia|]. apply len_is. pose proof (zlen_nonneg (concat (map (enc_value so re k) l))). lia.
        -- eapply sf_list; [exact Ty|]. rewrite Ex. exact FS.
      * destruct (list_rt m f false k Hf Ty G l (vlist x)) with (s := s) (u := u) as (ys & nums & Dl & Fl).
        { eapply Forall2_with; [|exact Rl]. intros a b Ha Hb Rab. destruct (Hl a Ha) as (Ta & Da & Hh).
          pose proof (elem_bound (enc_tagged so re (f_num f) k) l a Ha) as Lb. rewrite enc_tagged_eq, zlen_app in Lb by assumption.
          pose proof (zlen_nonneg (tag (f_num f) (wire_of k))).
          destruct (value_rt k a b Ta Da G) as (y & ? & ? & _); [eauto| lia |assumption|auto|eauto]. }
        { assumption. }
        exists (append (slot s (f_slot f)) ys), nums. split; [exact Dl|]. split; [|split; congruence].
        eapply sf_list; [exact Ty|]. rewrite Zs. destruct ys; exact Fl.
    + (* oneof *)
      assert (is_oneof f = true) as Of by (unfold is_oneof; now rewrite Ty).
      assert (is_required f = false) as Rf by (unfold is_required; now rewrite Ty).
      assert (is_group k = false) as G by (apply andb_true_iff in WT as [_ WT]; now apply negb_true_iff in WT).
      assert ((exists a z, v = VOneof (f_num f) a /\ x = VOneof (f_num f) z /\ repv k a z) \/
              ((forall a, v <> VOneof (f_num f) a) /\ forall z, x <> VOneof (f_num f) z)) as [(a & z & -> & -> & Rk)|[No Nx]].
      { inversion R as [| | | | | | |? ? ? g k' a z Q Hg Sg Tg Rk]; subst; try congruence; try (match goal with H : _ \/ _ |- _ => destruct H; congruence end).
        - right. split; discriminate.
        - destruct (Z.eq_dec (f_num g) (f_num f)) as [En|En].
          + assert (g = f) as -> by (eapply (wf_num_inj so); eauto). rewrite Ty in Tg. injection Tg as <-. left. eauto 10.
          + right. split; intros ? [= E _]; congruence. }
      * rewrite Z.eqb_refl in *. destruct T as [T|(g & k' & x' & [= En ->] & Hg & Sg & Tg & T)]; [discriminate|].
        assert (f = g) as <- by (eapply (wf_num_inj so); eauto). rewrite Ty in Tg. injection Tg as <-.
        destruct TX as [TX|(g & k' & z' & [= En' ->] & Hg' & Sg' & Tg' & TX)]; [discriminate|].
        assert (f = g) as <- by (eapply (wf_num_inj sn); eauto). rewrite Ty in Tg'. injection Tg' as <-.
        cbn [vdepth] in D. rewrite enc_tagged_eq in Z by assumption. rewrite zlen_app in Z. pose proof (zlen_nonneg (tag (f_num f) (wire_of k))).
        destruct (value_rt k x' z' T ltac:(lia) G) as (y & Dy & Sy & Ey & Ny & Np).
        { intros m1 E. eapply HS; [eapply holds_member; exact Ty|assumption]. } { lia. } { assumption. } { assumption. }
        exists (VOneof (f_num f) y), [f_num f]. split; [|split; [|split; [congruence|]]].
        -- apply (ONE _ x' y LOneof k); auto.
        -- eapply sf_member; eauto.
        -- intros _ No. now destruct (No z').
      * exists (slot s (f_slot f)), []. split; [|split; [|split; [congruence|auto]]].
        -- destruct v; try exact NONE. destruct (num =? f_num f) eqn:E; [|exact NONE]. apply Z.eqb_eq in E as ->. now destruct (No v).
        -- eapply sf_other; eauto.
  - (* map *)
    assert (is_oneof f = false /\ is_required f = false) as [Of Rf] by (unfold is_oneof, is_required; now rewrite Ty).
    assert (slot s (f_slot f) = VNil) as Zs by (rewrite Z0; auto).
    rewrite !andb_true_iff in WT. destruct WT as [[Kk _] Gv]. apply negb_true_iff in Gv.
    assert (Forall2 (fun e e' => fst e = fst e' /\ repv vk (snd e) (snd e')) (vmap v) (vmap x)) as Rl.
    { inversion R; subst; try congruence. assert (vk0 = vk) as -> by congruence. assumption. }
    assert (exists l, vmap v = l /\ NoDup (map fst l) /\ forall e, In e l -> wt_elem so kk (fst e) /\ wt_elem so vk (snd e) /\
      (vdepth (fst e) < n)%nat /\ (vdepth (snd e) < n)%nat /\ holds f v vk (snd e)) as (l & El & ND & Hl).
    { destruct T as [->|(l & -> & T1 & T2 & T3)]; [exists []; split; [reflexivity|split; [constructor|intros ? []]]|].
      exists l. split; [reflexivity|]. split; [assumption|]. intros e He. split; [auto|]. split; [auto|].
      pose proof (depth_map e l He). split; [|split; [lia|]].
      - assert (vdepth (fst e) = 0%nat) as ->; [|lia]. pose proof (T1 e He) as Te. inversion Te as [| | | |? ? Ek|? ? ? Ek]; try reflexivity; subst; destruct kk; discriminate.
      - destruct e as [ek ex]. eapply holds_map; eauto. }
    assert (forall e, In e (vmap x) -> wt_elem sn kk (fst e) /\ wt_elem sn vk (snd e)) as HX by (destruct TX as [->|(lx & -> & TX1 & TX2 & _)]; [intros ? []|auto]).
    rewrite El in *. apply Forall2_turn in Rl.
    destruct (map_rt m f kk vk Hf Ty (rev l) (rev (vmap x))) with (s := s) (u := u) (l0 := @nil (val * val)) as (ys & nums & Dl & Fl); rewrite ?Zs; auto.
    + eapply Forall2_with; [|exact Rl]. intros [ek ex] [ek' ez] He Hx [Ee Re]. cbn [fst snd] in Ee, Re. subst ek'. rewrite <- in_rev in Hx. destruct (HX _ Hx) as [X1 X2]. cbn [fst snd] in X1, X2. split; [reflexivity|]. cbn [fst snd].
      pose proof (elem_bound (enc_entry so re (f_num f) kk vk) (rev l) _ He) as Lb.
      set (tot := zlen (concat (map (enc_entry so re (f_num f) kk vk) (rev l)))) in *.
      apply in_rev in He. destruct (Hl _ He) as (T1 & T2 & D1 & D2 & Hh). cbn [fst snd] in *.
      unfold enc_entry in Lb. cbn [fst snd] in Lb. rewrite zlen_app in Lb.
      match type of Lb with _ + zlen (ld ?q) <= _ => pose proof (zlen_ld q) as Lq end.
      rewrite !zlen_app in Lq.
      pose proof (zlen_nonneg (tag (f_num f) 2)). pose proof (zlen_nonneg (tag 1 (wire_of kk))). pose proof (zlen_nonneg (tag 2 (wire_of vk))).
      pose proof (zlen_nonneg (enc_value so re kk ek)). pose proof (zlen_nonneg (enc_value so re vk ex)).
      assert (is_group kk = false /\ sub_of kk = None) as [Gk Sk] by (destruct kk; try discriminate; auto).
      destruct (value_rt kk ek ek T1 D1 Gk) as (yk & Dk & Svk & Ek & _); [intros; congruence|lia|now apply rv_same|assumption|].
      destruct (value_rt vk ex ez T2 D2 Gv) as (yv & Dv & Svv & _); [intros; eapply HS; eauto|lia|assumption|assumption|].
      assert (yk = ek) as -> by (apply Ek; destruct kk; try discriminate; auto).
      exists yv. split; [|auto]. replace VNil with (fresh sn kk) by (destruct kk; try discriminate; reflexivity). exact Dk.
    + cbn [app]. rewrite map_rev. eapply Permutation_NoDup; [apply Permutation_rev|assumption].
    + rewrite Zs in Dl. eexists _, nums. split; [exact Dl|]. split; [|split; congruence].
      eapply (sf_map _ _ _ _ f kk vk x _ (rev (vmap x))); [exact Ty|apply Permutation_rev|].
      destruct (rev l) eqn:Er.
      * inversion Rl as [E1 E2|]; subst. rewrite <- E2 in *. inversion Fl; subst. constructor.
      * cbn [vmap app]. exact Fl.
Qed.

Lemma member_inv f k x y : f_ty f = TField LOneof k -> sf f (VOneof (f_num f) x) y -> exists y', y = VOneof (f_num f) y'.
Proof.
  intros Ty H. inversion H; subst; try congruence; try (match goal with Q : _ \/ _ |- _ => destruct Q; congruence end); eauto.
Qed.

(** All fields, one after the other. *)
Lemma fields_rt m s sx u0 :
  (forall f, In f (oldf m) -> wt_field so (md_of so m) f (slot s (f_slot f)) /\ (vdepth (slot s (f_slot f)) < n)%nat /\
     repf m f (slot s (f_slot f)) (slot sx (f_slot f)) /\ wt_field sn (md_of sn m) f (slot sx (f_slot f)) /\
     (forall k m1 x, holds f (slot s (f_slot f)) k x -> sub_of k = Some m1 -> decodable so P m1 x /\ (x <> VNil -> ~ MissingSub so m1 x)) /\
     (forall l g, f_ty f = TField l (KGroup g) -> slot s (f_slot f) = VNil)) ->
  forall todo done cur, NoDup (done ++ todo) -> (forall f, In f (done ++ todo) -> In f (oldf m)) ->
  length cur = md_nslots (md_of so m) ->
  (forall f, In f done -> sf f (slot sx (f_slot f)) (slot cur (f_slot f))) ->
  (forall f, In f (oldf m) -> ~ In f done ->
     (is_oneof f = false -> slot cur (f_slot f) = zero_of (f_ty f)) /\
     (is_oneof f = true -> forall x, slot cur (f_slot f) <> VOneof (f_num f) x)) ->
  zlen (concat (map (fun f => enc_field so re f (slot s (f_slot f))) todo)) < B ->
  exists cur' nums, dec_fields sn m (concat (map (fun f => enc_field so re f (slot s (f_slot f))) todo)) (VMsg cur u0 []) (VMsg cur' u0 []) nums /\
    length cur' = md_nslots (md_of so m) /\
    (forall f, In f (done ++ todo) -> sf f (slot sx (f_slot f)) (slot cur' (f_slot f))) /\
    (forall f, In f todo -> is_required f = true -> slot s (f_slot f) <> VNil -> In (f_num f) nums) /\
    (forall i, (forall f, In f todo -> f_slot f <> i) -> slot cur' i = slot cur i).
Proof.
  intros H. induction todo as [|f todo IHt]; intros done cur ND Hin L Hd Hz Zc.
  - exists cur, []. split; [constructor|]. split; [assumption|]. split; [|split; [intros f []|auto]]. rewrite app_nil_r. assumption.
  - cbn [map concat] in Zc |- *. rewrite zlen_app in Zc.
    pose proof (zlen_nonneg (enc_field so re f (slot s (f_slot f)))). pose proof (zlen_nonneg (concat (map (fun f => enc_field so re f (slot s (f_slot f))) todo))).
    assert (In f (oldf m)) as Hf by (apply Hin; rewrite in_app_iff; right; now left).
    assert (~ In f done) as Nf by (intros Hi; apply NoDup_remove_2 in ND; apply ND; rewrite in_app_iff; now left).
    destruct (H f Hf) as (T & D & R & TX & HS & HG). destruct (Hz f Hf Nf) as [Z0 Z1].
    assert (f_slot f < length cur)%nat as Ls by (rewrite L; now apply wf_slot).
    destruct (field_rt m f (slot s (f_slot f)) (slot sx (f_slot f)) cur u0 Hf Ls T D R TX HS HG Z0 Z1 ltac:(lia)) as (y & nums & Df & Sf & Rf & Of).
    assert (forall g, In g (oldf m) -> g <> f -> f_slot g = f_slot f ->
       y = slot cur (f_slot f) \/ (exists x y' k, slot sx (f_slot f) = VOneof (f_num f) x /\ y = VOneof (f_num f) y' /\ f_ty g = TField LOneof k /\ f_num f <> f_num g)) as SH.
    { intros g Hg Ne Es. destruct (wf_compat so m f g Wo Hf Hg ltac:(congruence)) as [Nn C]. destruct (C (eq_sym Es)) as [C1 C2].
      assert ((exists x, slot sx (f_slot f) = VOneof (f_num f) x) \/ forall x, slot sx (f_slot f) <> VOneof (f_num f) x) as [(x & Ex)|No].
      { destruct (slot sx (f_slot f)); try (right; discriminate). destruct (Z.eq_dec num (f_num f)) as [->|Nq]; [left; eauto|right; intros x [= E _]; contradiction]. }
      - right. unfold is_oneof in C1, C2. destruct (f_ty f) as [[] k|] eqn:Tf; try discriminate. destruct (f_ty g) as [[] k'|] eqn:Tg; try discriminate.
        rewrite Ex in Sf. destruct (member_inv f k x y Tf Sf) as (y' & ->). eauto 10.
      - left. auto. }
    destruct (IHt (done ++ [f]) (put cur (f_slot f) y)) as (cur' & nums' & D' & L' & S' & R' & U').
    + rewrite <- app_assoc. exact ND.
    + rewrite <- app_assoc. exact Hin.
    + now rewrite put_length.
    + intros g Hg. rewrite in_app_iff in Hg. destruct Hg as [Hg|[<-|[]]]; [|now rewrite put_slot].
      assert (g <> f) as Ne by congruence. assert (In g (oldf m)) as Hg' by (apply Hin; rewrite in_app_iff; now left).
      destruct (Nat.eq_dec (f_slot f) (f_slot g)) as [Es|Es]; [|rewrite put_other by assumption; auto].
      destruct (SH g Hg' Ne (eq_sym Es)) as [->|(x & y' & k & Ex & -> & Tg & Nn)].
      * rewrite put_same by assumption. auto.
      * rewrite <- Es, put_slot, Ex by assumption. eapply sf_other; eauto; intros ? [= E _]; congruence.
    + intros g Hg Ng. assert (~ In g done /\ g <> f) as [Nd Ne] by (rewrite in_app_iff in Ng; cbn in Ng; split; [tauto|intros ->; tauto]).
      destruct (Hz g Hg Nd) as [Y0 Y1].
      destruct (Nat.eq_dec (f_slot f) (f_slot g)) as [Es|Es]; [|rewrite put_other by assumption; auto].
      destruct (SH g Hg Ne (eq_sym Es)) as [->|(x & y' & k & Ex & -> & Tg & Nn)].
      * rewrite put_same by assumption. auto.
      * rewrite <- Es, put_slot by assumption. split; [unfold is_oneof; rewrite Tg; discriminate|]. intros _ z [= E _]. congruence.
    + lia.
    + exists cur', (nums ++ nums'). split; [eapply fields_app; eauto|]. split; [assumption|]. split; [|split].
      * intros g Hg. apply S'. rewrite <- app_assoc. exact Hg.
      * intros g [<-|Hg] Rg Vg; rewrite in_app_iff; [left; auto|right; auto].
      * intros i Hi. rewrite U' by (intros; apply Hi; now right). apply put_other; [assumption|]. apply Hi. now left.
Qed.

(** The unknown bytes, after the other fields. *)
Lemma replay m bs v0 v1 nums : dec_fields sn m bs v0 v1 nums ->
  forall s0 u0 s1 u1, v0 = VMsg s0 u0 [] -> v1 = VMsg s1 u1 [] -> length s0 = md_nslots (md_of sn m) ->
  (forall f, In f (oldf m) -> ~ In (f_num f) nums) ->
  forall cur, length cur = md_nslots (md_of sn m) ->
  (forall f, In f (newf m) -> ~ In f (oldf m) -> slot cur (f_slot f) = slot s0 (f_slot f)) ->
  exists cur', dec_fields sn m bs (VMsg cur u0 []) (VMsg cur' u1 []) nums /\
    (forall f, In f (newf m) -> ~ In f (oldf m) -> slot cur' (f_slot f) = slot s1 (f_slot f)) /\
    (forall f, In f (oldf m) -> slot cur' (f_slot f) = slot cur (f_slot f)).
Proof.
  induction 1 as [m v|m num c bs v v1 v' nums D Df IHd]; intros s0 u0 s1 u1 -> E L N cur Lc Ag.
  - injection E as -> ->. exists cur. split; [constructor|auto].
  - subst v'. destruct (record_cases _ _ _ _ _ _ _ _ D) as [(f & y & Hf & En & -> & Loc)|(Un & (wt & Rc) & ->)].
    + assert (~ In f (oldf m)) as Nf by (intros Hi; apply (N f Hi); now left).
      assert (f_slot f < md_nslots (md_of sn m))%nat as Sf by (eapply wf_slot; eauto).
      destruct (IHd (put s0 (f_slot f) y) u0 s1 u1 eq_refl eq_refl) with (cur := put cur (f_slot f) y) as (cur' & D' & A1 & A2).
      * rewrite put_length; lia.
      * intros g Hg Hi. apply (N g Hg). now right.
      * rewrite put_length; lia.
      * intros g Hg Ng. destruct (Nat.eq_dec (f_slot f) (f_slot g)) as [Es|Es]; [rewrite <- Es, !put_slot by lia; reflexivity|].
        rewrite !put_other by lia. auto.
      * exists cur'. split; [eapply df_cons; [apply Loc; auto|exact D']|]. split; [assumption|].
        intros g Hg. rewrite A2 by assumption. apply put_other; [lia|]. intros Es. symmetry in Es. revert Es. eapply old_apart; eauto.
    + destruct (IHd s0 (if md_keep (md_of sn m) then u0 ++ c else u0) s1 u1 eq_refl eq_refl) with (cur := cur) as (cur' & D' & A1 & A2); auto.
      { intros g Hg Hi. apply (N g Hg). now right. }
      exists cur'. split; [|auto]. eapply df_cons; [|exact D']. eapply dr_unknown; eauto.
Qed.

Lemma body_rt m a x : wt_ptrmsg so m a -> (vdepth a < S n)%nat -> md_foreign (md_of so m) = false ->
  decodable so P m a -> ~ MissingRequired so m a -> zlen (enc_body so ord re m a) < B -> repv (KMessage m) a x -> wt_ptrmsg sn m x ->
  exists y, decodes sn m (enc_body so ord re m a) (new_msg (md_of sn m)) y /\ sm m (or_empty sn m x) y.
Proof.
  intros T D F DC M Zv R TX. assert (md_foreign (md_of sn m) = false) as Fn by now rewrite <- (old_foreign _ _ O).
  destruct T as [->|T].
  - assert (x = VNil) as -> by now apply (repv_nil so sn (KMessage m) VNil x).
    exists (new_msg (md_of sn m)). split; [|apply new_self; [assumption|intros; now left]]. cbn [enc_body]. eapply dec_own; [assumption|constructor|].
    intros f Hf Q. exfalso. pose proof (DC m VNil (in_self so m VNil)) as H. unfold ok_here in H. rewrite F in H. destruct H as [H _].
    destruct (in_dec field_dec f (oldf m)) as [Hi|Hi]; [rewrite (H eq_refl f Hi) in Q|rewrite (old_required _ _ O m f Hf Hi) in Q]; discriminate.
  - inversion T as [m0 s u h Ls HF Bu]; subst. cbn [enc_body] in *.
    inversion R as [? ? Sk| |? ? ? Sk F'|? ? ? ? Sk F' Rm]; subst; cbn in Sk; try congruence. injection Sk as <-.
    inversion Rm as [? ? ? sx ux s1 nums1 L1 L2 L3 H1 H2 H3 H4]; subst. destruct TX as [TX|TX]; [discriminate|]. pose proof TX as TX'. inversion TX' as [? ? ? ? _ HX _]; subst. cbn [or_empty].
    pose proof (DC m (VMsg s u []) (in_self _ _ _)) as H. unfold ok_here in H. rewrite F in H. destruct H as [_ H]. destruct (H s u [] eq_refl) as [_ HG]. clear H.
    rewrite (old_keep _ _ O m F) in *. rewrite zlen_app in Zv. pose proof (zlen_nonneg u).
    destruct (fields_rt m s sx []) with (todo := ord m) (done := @nil fdesc) (cur := zero_slots (md_of sn m)) as (cur & nums & Df & Lc & Sc & Rc & Uc).
    + intros f Hf. split; [auto|]. split; [pose proof (depth_slot s (f_slot f) u []); lia|]. split; [auto|]. split; [apply HX; now apply (old_fields _ _ O)|]. split; [|eauto].
      intros k m1 z Hh Sk. split.
      * intros m' y Hw. apply DC. eapply in_sub; eauto.
      * intros Nx Ms. apply M. remember (slot s (f_slot f)) as w eqn:El in Hh. destruct Hh as [f p k l z Ty Hx|f kk k l y z Ty Hx|f l k z Ty Hl Hx|f k z Ty].
        -- eapply miss_in; eauto. rewrite Ty, <- El. now constructor.
        -- eapply miss_in; eauto. rewrite Ty, <- El. now econstructor; eauto.
        -- eapply miss_in; eauto. rewrite Ty, <- El. now constructor.
        -- eapply miss_oneof; eauto.
    + eapply Permutation_NoDup; [symmetry; apply HO|]. eapply NoDup_map_inv, wf_NoDup, Wo.
    + cbn [app]. intros f Hf. eapply Permutation_in; [apply HO|assumption].
    + rewrite (old_slots _ _ O). unfold zero_slots. now rewrite map_length, seq_length.
    + intros f [].
    + intros f Hf _. rewrite (slot_zero sn m f Wn (old_fields _ _ O m f Hf)). split; [auto|]. intros Of z. unfold is_oneof in Of. destruct (f_ty f) as [[]|]; discriminate.
    + lia.
    + cbn [app] in Sc. rewrite (old_slots _ _ O) in Lc.
      destruct (replay m u _ _ _ H2 (zero_slots (md_of sn m)) [] s1 ux eq_refl eq_refl) with (cur := cur) as (cur' & Du & A1 & A2); auto.
      { unfold zero_slots. now rewrite map_length, seq_length. }
      { intros f Hf Nf. apply Uc. intros g Hg. assert (In g (oldf m)) as Hg' by (eapply Permutation_in; [apply HO|assumption]). eapply old_apart; eauto. }
      exists (VMsg cur' ux []). split.
      * eapply dec_own; [assumption|eapply fields_app; eauto|]. intros f Hf Q. rewrite in_app_iff. left.
        destruct (in_dec field_dec f (oldf m)) as [Hi|Hi]; [|rewrite (old_required _ _ O m f Hf Hi) in Q; discriminate].
        apply Rc; [|assumption|].
        -- eapply Permutation_in; [symmetry; apply HO|assumption].
        -- intros Ev. apply M. eapply miss_here; eauto.
      * constructor; [|reflexivity]. intros f Hf. destruct (in_dec field_dec f (oldf m)) as [Hi|Hi].
        -- rewrite A2 by assumption. apply Sc. eapply Permutation_in; [symmetry; apply HO|assumption].
        -- rewrite A1, H4 by assumption.
           assert (sm m (VMsg sx ux []) (VMsg sx ux [])) as RX.
           { eapply (refl_msg sn same_bits zero_lax P Wn); eauto.
             - intros; reflexivity.
             - intros; now left.
             - intros m' s' u' h' f' k' z' _ _ _ _. split; [reflexivity|now left].
             - intros m' z _ F1. now apply PRF. }
           inversion RX; subst. auto.
Qed.
End Level.

Lemma encoding_rt : forall n m a x, wt_ptrmsg so m a -> (vdepth a < n)%nat -> md_foreign (md_of so m) = false ->
  decodable so P m a -> ~ MissingRequired so m a -> zlen (enc_msg so ord n m a) < B -> repv (KMessage m) a x -> wt_ptrmsg sn m x ->
  exists y, decodes sn m (enc_msg so ord n m a) (new_msg (md_of sn m)) y /\ sm m (or_empty sn m x) y.
Proof. induction n as [|n IHn]; [lia|]. intros. cbn [enc_msg] in *. eapply body_rt; eauto. Qed.
End RT.
