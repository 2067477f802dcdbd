(** Messages related as in RunRel.v have the same encoding. *)
From Coq Require Import ZArith List Bool Lia.
From Verif Require Import PoolSpec.
From Verif Require Import Base BaseFacts Schema Value WireSpec Typing MsgSpec ContentSpec DecodeSpec Size Marshal OrderFacts MarshalFacts MarshalTop TargetFacts SameFacts EqualRel RunRel.
Import ListNotations.
Open Scope Z_scope.

(** Upstream's encoder does not look into spare capacity. *)
Definition up_trim (sc : schema) : Prop := forall m a b, md_foreign (md_of sc m) = true -> wt_msg sc m a -> wt_msg sc m b -> trim a = trim b ->
  up_enc (sc_up sc) m a = up_enc (sc_up sc) m b /\ up_init (sc_up sc) m a = up_init (sc_up sc) m b.

Section Enc.
Variable sc : schema.
Variable okt : kind -> val -> Prop.
Variable kept : nat -> Prop.
Hypothesis OP : forall a, okt KBytes a -> deref a = a.
Hypothesis NK : forall m, ~ kept m.
Hypothesis W : wf_schema sc = true.
Hypothesis UT : up_trim sc.
Notation rv := (rv sc okt kept). Notation rs := (rs sc okt kept). Notation rf := (rf sc okt kept). Notation rm := (rm sc okt kept).
Variable ord : nat -> list fdesc.
Hypothesis HO : forall m f, In f (ord m) -> In f (md_fields (md_of sc m)).

Section Level.
Variables (n n' : nat).
Variables (rec rec' : nat -> val -> list Z) (req req' : nat -> val -> bool).
Hypothesis H : forall m a b, md_foreign (md_of sc m) = false -> rs m a b -> (vdepth a < n)%nat -> (vdepth b < n')%nat -> rec m a = rec' m b /\ req m a = req' m b.
Notation below a b := ((vdepth a < n)%nat /\ (vdepth b < n')%nat).

Lemma sub_rel m a b : rs m a b -> below a b -> enc_sub sc rec m a = enc_sub sc rec' m b /\
  (if md_foreign (md_of sc m) then up_init (sc_up sc) m a else req m a) = (if md_foreign (md_of sc m) then up_init (sc_up sc) m b else req' m b).
Proof.
  intros R [La Lb]. unfold enc_sub. destruct (md_foreign (md_of sc m)) eqn:F; [|now apply H].
  inversion R as [|? ? ? _ Ta Tb E|? ? ? F' _]; subst; [auto| |congruence]. now apply UT.
Qed.
Lemma value_rel k a b : rv k a b -> below a b -> enc_value sc rec k a = enc_value sc rec' k b /\ req_value sc req k a = req_value sc req' k b.
Proof.
  intros R L. destruct R as [k z Nk|k a b K Oa Pb E|k m a b S R].
  - destruct k; try discriminate; split; reflexivity.
  - destruct K; subst; cbn; rewrite E; auto.
  - destruct k; try discriminate; injection S as ->; destruct (sub_rel m a b R L) as [E1 E2]; cbn; rewrite ?E1; auto.
Qed.
Lemma tagged_rel num k a b : rv k a b -> below a b -> enc_tagged sc rec num k a = enc_tagged sc rec' num k b.
Proof.
  intros R L. unfold enc_tagged. destruct (value_rel k a b R L) as [E _]. destruct k; try now rewrite E. cbn in E. now rewrite E.
Qed.
Lemma nil_rel k a b : rv k a b -> sub_of k <> None -> is_nil a = is_nil b.
Proof.
  intros R N. destruct R as [k z Nk|k a b K _ _ _|k m a b S R]; [destruct k; try discriminate; contradiction|destruct K; subst; contradiction|].
  pose proof (rs_nil_iff sc okt kept m a b R) as X. destruct a, b; try reflexivity; destruct X as [X1 X2]; try (discriminate (X1 eq_refl)); discriminate (X2 eq_refl).
Qed.
Lemma req_leaf rq k a : sub_of k = None -> req_value sc rq k a = true.
Proof. destruct k; try reflexivity; discriminate. Qed.
Lemma key_rel k a b : rv k a b -> key_kind k = true -> enc_value sc rec k a = enc_value sc rec' k b.
Proof.
  intros R K. destruct R as [k z Nk|k a b T Oa Pb E|k m a b S R].
  - destruct k; try discriminate; reflexivity.
  - destruct T; subst; cbn; now rewrite E.
  - destruct k; discriminate.
Qed.
Lemma field_rel m f a b : In f (md_fields (md_of sc m)) -> rf m f a b -> below a b -> enc_field sc rec f a = enc_field sc rec' f b /\ req_field sc req f a = req_field sc req' f b.
Proof.
  intros Hf R L. unfold enc_field, req_field.
  destruct R as [m f k a b T X|m f l k T O|m f l T O K|m f l k a b T O K X|m f l k a b T O K1 K2 Na Nb X|m f p k a b T Sa Sb X|m f kk vk a b T Sa Sb X|m f k T|m f k z x y T Nn|m f k x y T X]; rewrite T.
  - assert (default_value k a = default_value k b) as D.
    { unfold default_value. destruct X as [k z Nk|k a b K _ _ E|k m' a b S R]; [destruct k; try discriminate; reflexivity|destruct K; subst; now rewrite E|].
      pose proof (nil_rel k a b (rv_sub _ _ _ k m' a b S R) ltac:(congruence)). destruct k; try discriminate; assumption. }
    rewrite D. split; [destruct (default_value k b); [reflexivity|now apply tagged_rel]|].
    destruct (sub_of k) eqn:S; [|now rewrite !req_leaf, !orb_true_r]. rewrite (nil_rel k a b X) by congruence. now rewrite (proj2 (value_rel k a b X L)).
  - destruct O as [->| ->]; auto.
  - destruct (NK m K).
  - assert (below a b) as L' by (cbn in L; lia). destruct O as [->| ->]; (split; [now apply tagged_rel|now apply value_rel]).
  - assert (deref a = a /\ deref b = b) as [Da Db].
    { destruct X as [k z Nk|k a b K Oa Pb E|k m' a b S R]; [congruence| |].
      - destruct K as [->| ->]; [congruence|]. split; [now apply OP|]. destruct Pb as [_ Pb]. destruct (Pb eq_refl) as [->|[z ->]]; reflexivity.
      - destruct R as [|? ? ? _ Ta Tb _|? ? ? _ R]; [auto|inversion Ta; inversion Tb; subst; auto|inversion R; subst; auto]. }
    assert (forall Q (g : val -> Q) d v, v <> VNil -> deref v = v -> match v with VNil => d | VPtr x => g x | x => g x end = g v) as M.
    { intros Q g d v N D. destruct v; try reflexivity; [contradiction|]. cbn in D. exfalso. clear - D. revert D. induction v; congruence. }
    destruct O as [->| ->]; rewrite !M by assumption; (split; [now apply tagged_rel|now apply value_rel]).
  - assert (forall x, In x (vlist a) -> (vdepth x < n)%nat) as Da by (intros x Hx; destruct Sa as [->|[l ->]]; [destruct Hx|]; pose proof (depth_list x l Hx); lia).
    assert (forall x, In x (vlist b) -> (vdepth x < n')%nat) as Db by (intros x Hx; destruct Sb as [->|[l ->]]; [destruct Hx|]; pose proof (depth_list x l Hx); lia).
    clear Sa Sb L. revert X Da Db. generalize (vlist a) (vlist b). intros la lb X Da Db.
    assert (concat (map (enc_tagged sc rec (f_num f) k) la) = concat (map (enc_tagged sc rec' (f_num f) k) lb) /\
            concat (map (enc_value sc rec k) la) = concat (map (enc_value sc rec' k) lb) /\ forallb (req_value sc req k) la = forallb (req_value sc req' k) lb /\ (la = [] <-> lb = [])) as (E1 & E2 & E3 & E4).
    { induction X as [|x y la lb V X IH]; [repeat split|]. destruct IH as (E1 & E2 & E3 & _); [intros; apply Da; now right|intros; apply Db; now right|].
      assert (below x y) as L by (split; [apply Da; now left|apply Db; now left]). destruct (value_rel k x y V L) as [V1 V2]. cbn. rewrite (tagged_rel _ _ _ _ V L), V1, V2, E1, E2, E3.
      repeat split; discriminate. }
    destruct p; (split; [|exact E3]); [|exact E1]. destruct la, lb; [reflexivity|discriminate (proj1 E4 eq_refl)|discriminate (proj2 E4 eq_refl)|]. now rewrite E2.
  - assert (forall e, In e (vmap a) -> (vdepth (snd e) < n)%nat) as Da by (intros x Hx; destruct Sa as [->|[l ->]]; [destruct Hx|]; pose proof (depth_map x l Hx); lia).
    assert (forall e, In e (vmap b) -> (vdepth (snd e) < n')%nat) as Db by (intros x Hx; destruct Sb as [->|[l ->]]; [destruct Hx|]; pose proof (depth_map x l Hx); lia).
    assert (key_kind kk = true) as Kk by (pose proof (wf_ty sc m f W Hf) as Wt; rewrite T in Wt; cbn in Wt; apply andb_true_iff in Wt as [Wt _]; apply andb_true_iff in Wt as [Wt _]; exact Wt).
    clear Sa Sb L. revert X Da Db. generalize (vmap a) (vmap b). intros la lb X Da Db.
    assert (map (enc_entry sc rec (f_num f) kk vk) la = map (enc_entry sc rec' (f_num f) kk vk) lb /\
            forallb (fun e => req_value sc req vk (snd e)) la = forallb (fun e => req_value sc req' vk (snd e)) lb) as (E1 & E2).
    { induction X as [|x y la lb [V1 V2] X IH]; [split; reflexivity|]. destruct IH as (E1 & E2); [intros; apply Da; now right|intros; apply Db; now right|].
      assert (below (snd x) (snd y)) as L by (split; [apply Da; now left|apply Db; now left]). destruct (value_rel vk _ _ V2 L) as [E3 E4]. cbn [map forallb]. rewrite E1, E2, E4.
      unfold enc_entry at 1 3. rewrite (key_rel kk _ _ V1 Kk), E3. auto. }
    split; [|exact E2]. now rewrite !map_rev, E1.
  - auto.
  - rewrite (proj2 (Z.eqb_neq z (f_num f)) Nn). auto.
  - rewrite Z.eqb_refl. assert (below x y) as L' by (cbn in L; lia). split; [now apply tagged_rel|].
    destruct (sub_of k) eqn:S; [|now rewrite !req_leaf, !orb_true_r]. rewrite (nil_rel k x y X) by congruence. now rewrite (proj2 (value_rel k x y X L')).
Qed.
End Level.

Lemma msg_rel : forall n n' m a b, md_foreign (md_of sc m) = false -> rs m a b -> (vdepth a < n)%nat -> (vdepth b < n')%nat ->
  enc_msg sc ord n m a = enc_msg sc ord n' m b /\ req_msg sc n m a = req_msg sc n' m b.
Proof.
  induction n as [|n IH]; intros [|n'] m a b F R La Lb; try lia. cbn [enc_msg req_msg].
  inversion R as [|? ? ? F'|? ? ? _ M]; subst; [auto|congruence|]. inversion M as [? s u h s' h' L1 L2 HF _ _ _]; subst. cbn [enc_body req_body].
  assert (forall f, In f (md_fields (md_of sc m)) -> enc_field sc (enc_msg sc ord n) f (slot s (f_slot f)) = enc_field sc (enc_msg sc ord n') f (slot s' (f_slot f)) /\
    req_field sc (req_msg sc n) f (slot s (f_slot f)) = req_field sc (req_msg sc n') f (slot s' (f_slot f))) as Hf.
  { intros f Hin. apply (field_rel n n' _ _ _ _ (IH n') m f); auto. pose proof (depth_slot s (f_slot f) u h). pose proof (depth_slot s' (f_slot f) u h'). lia. }
  split.
  - f_equal. f_equal. apply map_ext_in. intros f Hin. apply Hf. now apply HO.
  - assert (forall l, incl l (md_fields (md_of sc m)) -> forallb (fun f => req_field sc (req_msg sc n) f (slot s (f_slot f))) l = forallb (fun f => req_field sc (req_msg sc n') f (slot s' (f_slot f))) l) as X; [|apply X, incl_refl].
    induction l as [|f l IHl]; intros I; [reflexivity|]. cbn. rewrite (proj2 (Hf f (I f (or_introl eq_refl)))), IHl; auto. intros g Hg. apply I. now right.
Qed.
End Enc.

(** What the generated encoders do with them. *)
Lemma rel_marshal sc (okt : kind -> val -> Prop) (kept : nat -> Prop) strict m a b : (forall a, okt KBytes a -> deref a = a) -> (forall m, ~ kept m) -> wf_schema sc = true -> up_enc_ok sc -> up_trim sc ->
  md_foreign (md_of sc m) = false -> rs sc okt kept m a b -> wt_msg sc m a -> wt_msg sc m b ->
  SizeVT sc m a = SizeVT sc m b /\
  ((exists bs, MarshalVT sc strict m a = Ok (Some bs) /\ MarshalVT sc strict m b = Ok (Some bs)) \/
   (exists e e', MarshalVT sc strict m a = Err e tt /\ MarshalVT sc strict m b = Err e' tt)).
Proof.
  intros OP NK W U UT F R Ta Tb.
  destruct (msg_rel sc okt kept OP NK W UT (order sc strict) (fun m f Hf => Permutation.Permutation_in f (order_perm sc strict m) Hf) _ _ m a b F R (Nat.lt_succ_diag_r _) (Nat.lt_succ_diag_r _)) as [E1 E2].
  change (Encoding sc (order sc strict) m a = Encoding sc (order sc strict) m b) in E1. change (Initialized sc m a = Initialized sc m b) in E2.
  pose proof (top_size sc W U strict m a (or_intror Ta)) as Sa. pose proof (top_size sc W U strict m b (or_intror Tb)) as Sb. split; [congruence|].
  pose proof (top_marshal sc W U strict m a (or_intror Ta) ltac:(intros ->; inversion Ta)) as Ma. pose proof (top_marshal sc W U strict m b (or_intror Tb) ltac:(intros ->; inversion Tb)) as Mb.
  rewrite E1, E2 in Ma. destruct (Initialized sc m b).
  - left. eauto.
  - right. destruct Ma as [e Ma], Mb as [e' Mb]. eauto.
Qed.
