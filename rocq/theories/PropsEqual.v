(** Properties C31-C33 and C18 in terms of EqualVT.

    The theorems range over every well-formed schema, every upstream meeting its
    contract, and all well-typed messages.  [o] says which pointers of the two
    operands are the same pointer: it is arbitrary, since EqualVT compares pointers
    before contents; [fun _ => false] means that the operands share nothing.
    [equal_content], [equal_or_identical], [go_equal], [nan_free]: EqualSpec.v. *)
From Coq Require Import ZArith List Bool Lia Permutation.
From Verif Require Import TargetFacts UmFacts Base BaseFacts Schema Value Helpers Size Marshal Unmarshal Equal WireSpec Typing RecordSpec MsgSpec DecodeSpec ContentSpec EqualSpec
  OrderFacts SimFacts MarshalFacts MarshalTop SameFacts WithinFacts EqualRel EqualFacts EqualSame SizeSame RoundTripTop Ex
  PropsMarshal PropsUnmarshal PropsRoundTrip.
Import ListNotations.
Open Scope Z_scope.

(** * The example *)
Definition num_held (f : fdesc) (v : val) : list (kind * Z) :=
  match f_ty f, v with
  | TField LImplicit k, VInt z => [(k, z)]
  | TField (LOptional | LRequired) k, VPtr (VInt z) => [(k, z)]
  | TField (LRepeated _) k, VList l => map (fun x => (k, vint x)) l
  | TMap _ k, VMap l => map (fun e => (k, vint (snd e))) l
  | TField LOneof k, VOneof n (VInt z) => [(k, z)]
  | _, _ => []
  end.
Lemma num_held_ok f v k z : number f v k z -> In (k, z) (num_held f v).
Proof.
  intros H. unfold num_held. inversion H as [? ? ? T|? l ? ? T L|? p ? l ? T Hx|? kk ? l y ? T Hx|? ? ? T]; subst; rewrite T.
  - now left.
  - destruct L; subst; now left.
  - change (k, z) with ((fun x => (k, vint x)) (VInt z)). now apply in_map.
  - change (k, z) with ((fun e : val * val => (k, vint (snd e))) (y, VInt z)). now apply in_map.
  - now left.
Qed.
Section Free.
Variable sc : schema.
Fixpoint free_b (n : nat) (m : nat) (v : val) : bool :=
  match n with
  | O => false
  | S n' =>
      if md_foreign (md_of sc m) then up_eq (sc_up sc) m (or_empty sc m v) (or_empty sc m v) else
      match v with
      | VMsg s _ _ =>
          forallb (fun f => forallb (fun e => negb (is_nan (fst e) (snd e))) (num_held f (slot s (f_slot f)))
            && forallb (fun e => match sub_of (fst e) with Some m1 => free_b n' m1 (snd e) | None => true end) (held f (slot s (f_slot f))))
            (md_fields (md_of sc m))
      | _ => true
      end
  end.
Lemma free_b_ok n : forall m v, free_b n m v = true -> nan_free sc m v.
Proof.
  induction n as [|n IH]; intros m v H; [discriminate|]. cbn [free_b] in H. destruct (md_foreign (md_of sc m)) eqn:F.
  { split.
    - intros m' s u h f k z Hw F' _ _. inversion Hw; subst; congruence.
    - intros m' x Hw F'. inversion Hw; subst; congruence. }
  assert (forall s u h, v = VMsg s u h -> forall f, In f (md_fields (md_of sc m)) ->
    (forall k z, number f (slot s (f_slot f)) k z -> ~ nan k z) /\ (forall k x m1, holds f (slot s (f_slot f)) k x -> sub_of k = Some m1 -> nan_free sc m1 x)) as G.
  { intros s u h -> f Hf. rewrite forallb_forall in H. specialize (H f Hf). apply andb_true_iff in H as [H1 H2]. rewrite forallb_forall in H1, H2. split.
    - intros k z Hn. specialize (H1 _ (num_held_ok _ _ _ _ Hn)). cbn in H1. rewrite <- is_nan_spec. now destruct (is_nan k z).
    - intros k x m1 Hh Sk. specialize (H2 _ (held_ok _ _ _ _ Hh)). cbn in H2. rewrite Sk in H2. auto. }
  split.
  - intros m' s u h f k z Hw F' Hf Hn. inversion Hw as [|? s0 u0 h0 f0 k0 m1 y ? ? _ Hf0 Hh Sk Hw']; subst.
    + exact (proj1 (G s u h eq_refl f Hf) k z Hn).
    + eapply (proj1 (proj2 (G s0 u0 h0 eq_refl f0 Hf0) _ _ _ Hh Sk)); eauto.
  - intros m' x Hw F'. inversion Hw as [|? s0 u0 h0 f0 k0 m1 y ? ? _ Hf0 Hh Sk Hw']; subst; [congruence|].
    eapply (proj2 (proj2 (G s0 u0 h0 eq_refl f0 Hf0) _ _ _ Hh Sk)); eauto.
Qed.
End Free.
Lemma ex_eq_ok : up_eq_ok ex_sc.
Proof.
  split; try reflexivity.
  - intros. apply val_eqb_refl.
  - intros m x y H. apply val_eqb_eq in H. subst. apply val_eqb_refl.
  - intros m x y z H1 H2. apply val_eqb_eq in H1. apply val_eqb_eq in H2. subst. apply val_eqb_refl.
Qed.
Lemma ex_free : nan_free ex_sc 0 ex_v. Proof. apply (free_b_ok ex_sc 5). reflexivity. Qed.
(** [ex_v] with the map entries swapped and an empty message instead of the nil one
    in the list. *)
Definition ex_w : val := VMsg
  [ VInt (-1); VPtr (VStr [104; 105]); VList [VInt (-1); VInt 300];
    VList [ex_inner; new_msg ex_m0]; VMap [(VStr [98; 99], ex_req (-7)); (VStr [97], ex_req 1)];
    VOneof 7 (ex_req 150); VInt 4607182418800017408; VBytes [0; 255];
    VMsg [VInt 77] [] []; VList [VStr []; VStr [120]] ] [160; 6; 1] [].
Lemma ex_w_wt : wt_msg ex_sc 0 ex_w. Proof. now apply (check_ok ex_sc 5). Qed.
(** A message whose only field set is a NaN, and one with negative zero. *)
Definition ex_double (z : Z) : val := VMsg [VInt 0; VNil; VNil; VNil; VNil; VNil; VInt z; VNil; VNil; VNil] [] [].
Definition ex_nan : val := ex_double 9221120237041090560.
Lemma ex_double_wt z : in_range KDouble z = true -> wt_msg ex_sc 0 (ex_double z).
Proof. intros H. apply (check_ok ex_sc 5). cbn in *. now rewrite H. Qed.

(** * C32 *)
(** EqualVT decides [equal_content] (and nil is equal to nil only). *)
Theorem C32_decides : forall sc o m a b,
  wf_schema sc = true -> up_eq_ok sc -> md_foreign (md_of sc m) = false ->
  wt_ptrmsg sc m a -> wt_ptrmsg sc m b -> nan_free sc m a ->
  (EqualVT sc o m a b = true <-> (a = VNil /\ b = VNil) \/ equal_content sc m a b).
Proof.
  intros sc o m a b W U F Ta Tb N. rewrite EqualVT_iff by assumption. split.
  - intros H. destruct Ta as [->|Ta]; [inversion H; subst; [auto|contradiction]|].
    destruct Tb as [->|Tb]; [inversion H; subst; [auto|contradiction]|].
    right. apply identical_equal; auto. eapply eqm_identical; eauto.
  - intros [[-> ->]|H]; [apply em_nil|].
    assert (a <> VNil /\ b <> VNil) as [Na Nb] by (inversion H; subst; split; discriminate).
    destruct Ta as [?|Ta]; [contradiction|]. destruct Tb as [?|Tb]; [contradiction|]. now apply from_any.
Qed.
Print Assumptions C32_decides.
Example C32_nonvacuous : wf_schema ex_sc = true /\ up_eq_ok ex_sc /\ wt_msg ex_sc 0 ex_v /\ wt_msg ex_sc 0 ex_w /\ nan_free ex_sc 0 ex_v /\
  ex_v <> ex_w /\ EqualVT ex_sc (fun _ => false) 0 ex_v ex_w = true /\ EqualVT ex_sc (fun _ => false) 0 ex_v ex_bad = false.
Proof.
  split; [apply ex_wf|]. split; [apply ex_eq_ok|]. split; [apply ex_wt|]. split; [apply ex_w_wt|]. split; [apply ex_free|].
  split; [discriminate|]. split; vm_compute; reflexivity.
Qed.

(** Operands sharing no pointer, NaN or not. *)
Theorem C32_separate : forall sc m a b,
  wf_schema sc = true -> up_eq_ok sc -> md_foreign (md_of sc m) = false ->
  wt_ptrmsg sc m a -> wt_ptrmsg sc m b ->
  (EqualVT sc (fun _ => false) m a b = true <-> (a = VNil /\ b = VNil) \/ equal_content sc m a b).
Proof.
  intros sc m a b W U F Ta Tb. rewrite EqualVT_iff by assumption. split.
  - intros H. destruct Ta as [->|Ta]; [inversion H; subst; [auto|contradiction]|].
    destruct Tb as [->|Tb]; [inversion H; subst; [auto|contradiction]|].
    right. eapply eqm_separate; eauto.
  - intros [[-> ->]|H]; [apply em_nil|].
    assert (a <> VNil /\ b <> VNil) as [Na Nb] by (inversion H; subst; split; discriminate).
    destruct Ta as [?|Ta]; [contradiction|]. destruct Tb as [?|Tb]; [contradiction|]. now apply from_any.
Qed.
Print Assumptions C32_separate.

(** Any operands: true if the contents are equal, and only if they are equal up to
    values that are identical (which NaN in a shared sub-message is). *)
Theorem C32_any : forall sc o m a b,
  wf_schema sc = true -> up_eq_ok sc -> md_foreign (md_of sc m) = false -> wt_msg sc m a -> wt_msg sc m b ->
  (equal_content sc m a b -> EqualVT sc o m a b = true) /\
  (EqualVT sc o m a b = true -> equal_or_identical sc m a b).
Proof.
  intros sc o m a b W U F Ta Tb. assert (wt_ptrmsg sc m a) as Ta' by now right. assert (wt_ptrmsg sc m b) as Tb' by now right.
  rewrite EqualVT_iff by assumption. split; [now apply from_any|]. intros. eapply eqm_identical; eauto.
Qed.
Print Assumptions C32_any.
Example C32_zeros_nan :
  EqualVT ex_sc (fun _ => false) 0 (ex_double 0) (ex_double 9223372036854775808) = true /\
  EqualVT ex_sc (fun _ => false) 0 ex_nan ex_nan = false /\ EqualVT ex_sc (fun _ => true) 0 ex_nan ex_nan = true /\
  wt_msg ex_sc 0 ex_nan.
Proof. split; [vm_compute; reflexivity|]. split; [vm_compute; reflexivity|]. split; [vm_compute; reflexivity|]. now apply ex_double_wt. Qed.

(** * C31 *)
Theorem C31_symmetric : forall sc o m a b,
  wf_schema sc = true -> up_eq_ok sc -> md_foreign (md_of sc m) = false -> wt_ptrmsg sc m a -> wt_ptrmsg sc m b ->
  EqualVT sc o m a b = EqualVT sc o m b a.
Proof.
  intros. apply eq_true_iff_eq. rewrite !EqualVT_iff by assumption. split; apply symm_m; assumption.
Qed.
Print Assumptions C31_symmetric.

(** Transitive: [o1], [o2], [o3] are the shared pointers of [a] and [b], [b] and
    [c], [a] and [c].  What is below a shared pointer is shared; a pointer of [a]
    that is the one in [b] and that is the one in [c] is the one in [c]. *)
Theorem C31_transitive : forall sc o1 o2 o3 m a b c,
  wf_schema sc = true -> up_eq_ok sc -> md_foreign (md_of sc m) = false ->
  wt_ptrmsg sc m a -> wt_ptrmsg sc m b -> wt_ptrmsg sc m c ->
  closed o1 -> closed o2 -> (forall p, o1 p = true -> o2 p = true -> o3 p = true) ->
  EqualVT sc o1 m a b = true -> EqualVT sc o2 m b c = true -> EqualVT sc o3 m a c = true.
Proof.
  intros sc o1 o2 o3 m a b c W U F Ta Tb Tc C1 C2 J. rewrite !EqualVT_iff by assumption. intros H1 H2.
  eapply (tr_m sc W U o1 o2 o3 C1 C2 J); eauto.
Qed.
Print Assumptions C31_transitive.
Example C31_closed : closed (fun _ => false) /\ closed (fun _ => true).
Proof. split; split; auto. Qed.

Theorem C31_reflexive : forall sc o m a,
  wf_schema sc = true -> up_eq_ok sc -> md_foreign (md_of sc m) = false -> wt_ptrmsg sc m a -> nan_free sc m a ->
  EqualVT sc o m a a = true.
Proof.
  intros sc o m a W U F T N. apply C32_decides; auto. destruct T as [->|T]; [auto|]. right. now apply self_equal.
Qed.
Print Assumptions C31_reflexive.

(** Any message is equal to itself: the same pointer, not a copy. *)
Theorem C31_same_pointer : forall sc o m a,
  wf_schema sc = true -> md_foreign (md_of sc m) = false -> wt_ptrmsg sc m a -> o [] = true -> EqualVT sc o m a a = true.
Proof.
  intros sc o m a W F T E. apply EqualVT_iff; auto. destruct T as [->|T]; [apply em_nil|].
  apply em_ptr; [assumption|]. intros ->. inversion T.
Qed.
Print Assumptions C31_same_pointer.

(** * C33 *)
Theorem C33_same_size : forall sc o m a b,
  wf_schema sc = true -> up_enc_ok sc -> up_eq_ok sc -> up_len_ok sc -> md_foreign (md_of sc m) = false ->
  wt_ptrmsg sc m a -> wt_ptrmsg sc m b -> EqualVT sc o m a b = true -> SizeVT sc m a = SizeVT sc m b.
Proof.
  intros sc o m a b W UE U UL F Ta Tb H. rewrite EqualVT_iff in H by assumption.
  destruct Ta as [->|Ta]; [inversion H; subst; [reflexivity|contradiction]|].
  destruct Tb as [->|Tb]; [inversion H; subst; [reflexivity|contradiction]|].
  rewrite !(top_size sc W UE true) by now right.
  apply (len_m sc (order sc true) W UE UL); auto.
  - intros m'. apply order_perm.
  - eapply eqm_identical; eauto.
Qed.
Print Assumptions C33_same_size.
Lemma ex_len_ok : up_len_ok ex_sc.
Proof.
  split.
  - intros m x y F H. apply val_eqb_eq in H. now subst.
  - intros m F. destruct m as [|[|[|m]]]; try discriminate F. reflexivity.
    cbn in F. unfold md_of in F. cbn in F. destruct m; discriminate.
Qed.
Example C33_nonvacuous : up_len_ok ex_sc /\ EqualVT ex_sc (fun _ => false) 0 ex_v ex_w = true /\ SizeVT ex_sc 0 ex_w = 96.
Proof. split; [apply ex_len_ok|]. split; vm_compute; reflexivity. Qed.

(** What UnmarshalVT makes of the bytes of a NaN-free message is EqualVT to it. *)
Lemma wt_numbers sc m v : wf_schema sc = true -> wt_msg sc m v -> all_numbers sc m v (fun k z => is_num k = true -> in_range k z = true).
Proof.
  intros W T m' s u h f k z Hw F Hf Hn N. apply (within_wt sc W) in Hw; [|now right]. destruct Hw as [?|Hw]; [discriminate|].
  inversion Hw as [? ? ? ? _ Fs _]; subst. pose proof (Fs f Hf) as Tf. set (x := slot s (f_slot f)) in *. clearbody x. apply wt_field_inv in Tf.
  assert (forall k' y, wt_elem sc k' y -> k' = k -> y = VInt z -> in_range k z = true) as EL.
  { intros k' y Te -> ->. destruct (wt_elem_num sc k _ N Te) as (z' & [= <-] & R). exact R. }
  inversion Hn as [? ? ? Ty|? l ? ? Ty L|? p ? l ? Ty Hx|? kk ? l y ? Ty Hx|? ? ? Ty]; subst; rewrite Ty in Tf.
  - eapply EL; eauto.
  - assert (VPtr (VInt z) = VNil \/ (exists x0, VPtr (VInt z) = VPtr x0 /\ (is_num k = true \/ k = KString) /\ wt_elem sc k x0) \/ (is_num k = false /\ k <> KString /\ wt_elem sc k (VPtr (VInt z)))) as [?|[(x0 & [= <-] & _ & Te)|(? & _)]] by (destruct L; subst; exact Tf); try congruence.
    eapply EL; eauto.
  - destruct Tf as [?|(l0 & [= <-] & Tl)]; [discriminate|]. eapply EL; eauto.
  - destruct Tf as [?|(l0 & [= <-] & T1 & T2 & _)]; [discriminate|]. exact (EL _ _ (T2 _ Hx) eq_refl eq_refl).
  - destruct Tf as [?|(g & k' & x0 & [= En <-] & Hg & Sg & Tg & Tx)]; [discriminate|].
    assert (g = f) as -> by (eapply wf_num_inj; eauto). rewrite Ty in Tg. injection Tg as <-. eapply EL; eauto.
Qed.
Definition exact (k : kind) (x y : Z) : Prop := x = y /\ ~ nan k x.
Definition proper (k : kind) (x y : Z) : Prop := x = y /\ ~ nan k x /\ (is_num k = true -> in_range k x = true).
Lemma normal_equal k x y : ~ nan k x -> (is_num k = true -> in_range k x = true) -> zero_normal k x y -> go_equal k x y.
Proof.
  unfold zero_normal. intros N R ->. destruct (zero_num k x) eqn:Z0; [|now apply go_equal_refl].
  split; [assumption|]. split; [apply nan_zero|].
  destruct k; cbn [zero_num] in Z0; try (left; lia); cbn [float_zero]; cbn in R; specialize (R eq_refl); right; (split; [|now left]).
  - apply Z.eqb_eq in Z0. assert (x = 0 \/ x = 9223372036854775808) as [->| ->]; [|now left|now right].
    pose proof (Z.div_mod x 9223372036854775808 ltac:(lia)). lia.
  - apply Z.eqb_eq in Z0. assert (x = 0 \/ x = 2147483648) as [->| ->]; [|now left|now right].
    pose proof (Z.div_mod x 2147483648 ltac:(lia)). lia.
Qed.
Lemma rt_equal sc m v v' : wf_schema sc = true -> up_eq_ok sc -> md_foreign (md_of sc m) = false -> wt_msg sc m v -> nan_free sc m v ->
  same_msg sc same_bits zero_normal (fun m x y => up_eq (sc_up sc) m x y = true) m v v' -> equal_content sc m v v'.
Proof.
  intros W U F T [N P] H.
  assert (same_msg sc exact proper (fun m x y => up_eq (sc_up sc) m x y = true) m v v) as R.
  { apply (refl_msg sc _ _ _ W) with (n := S (vdepth v)); auto.
    - intros k z K. split; [reflexivity|now apply key_not_nan].
    - intros k. split; [reflexivity|]. split; [apply nan_zero|]. now destruct k.
    - intros m' s u h f k z A B C D. pose proof (N m' s u h f k z A B C D) as Nz. split; split; auto. split; [assumption|].
      exact (wt_numbers sc m v W T m' s u h f k z A B C D). }
  refine (trans_msg sc exact proper same_bits zero_normal go_equal go_equal
    (fun m x y => up_eq (sc_up sc) m x y = true) (fun m x y => up_eq (sc_up sc) m x y = true) (fun m x y => up_eq (sc_up sc) m x y = true) _ _ _ m v v R v' H).
  - intros k x y z [-> Nx] ->. now apply go_equal_refl.
  - intros k x y z (-> & Nx & Rx) Z0. now apply normal_equal.
  - intros m' x y z. apply (up_eq_trans sc U).
Qed.

Lemma decoded_wt sc P strict m v bs v' : wf_schema sc = true -> up_enc_ok sc -> up_dec_ok sc -> md_foreign (md_of sc m) = false ->
  wt_msg sc m v -> decodable sc P m v -> MarshalVT sc strict m v = Ok (Some bs) -> small bs ->
  accepts sc m bs (new_msg (md_of sc m)) v' -> wt_msg sc m v'.
Proof.
  intros W UE UD F T D E S A. destruct (marshal_decodes sc P W UE UD strict m v bs F T D E S) as [B _].
  destruct (UnmarshalVT_total sc W UD m bs (new_msg (md_of sc m)) B S (target_new sc W m)) as [(x & Ex & [Tx _])|(e & x & Ex & _)];
    unfold accepts in A; rewrite A in Ex; [injection Ex as ->; exact Tx|discriminate].
Qed.

Theorem C18_equal : forall sc o strict m v bs,
  wf_schema sc = true -> up_enc_ok sc -> up_dec_ok sc -> up_eq_ok sc -> md_foreign (md_of sc m) = false ->
  wt_msg sc m v -> nan_free sc m v -> decodable sc (fun m x y => up_eq (sc_up sc) m x y = true) m v ->
  MarshalVT sc strict m v = Ok (Some bs) -> small bs ->
  exists v', accepts sc m bs (new_msg (md_of sc m)) v' /\ EqualVT sc o m v v' = true.
Proof.
  intros sc o strict m v bs W UE UD U F T N D E S.
  destruct (marshal_unmarshal sc _ W UE UD strict m v bs F T D E S) as (v' & A & M). exists v'. split; [exact A|].
  assert (wt_msg sc m v') as T' by exact (decoded_wt sc _ strict m v bs v' W UE UD F T D E S A).
  apply C32_decides; auto; [now right|now right|]. right. now apply rt_equal.
Qed.
Print Assumptions C18_equal.

(** Messages that are EqualVT decode from their bytes to messages that are. *)
Theorem C33_decode_alike : forall sc o o' s1 s2 m a b b1 b2,
  wf_schema sc = true -> up_enc_ok sc -> up_dec_ok sc -> up_eq_ok sc -> md_foreign (md_of sc m) = false ->
  wt_msg sc m a -> wt_msg sc m b -> nan_free sc m a -> nan_free sc m b ->
  decodable sc (fun m x y => up_eq (sc_up sc) m x y = true) m a -> decodable sc (fun m x y => up_eq (sc_up sc) m x y = true) m b ->
  EqualVT sc o m a b = true ->
  MarshalVT sc s1 m a = Ok (Some b1) -> MarshalVT sc s2 m b = Ok (Some b2) -> small b1 -> small b2 ->
  exists v1 v2, accepts sc m b1 (new_msg (md_of sc m)) v1 /\ accepts sc m b2 (new_msg (md_of sc m)) v2 /\
    EqualVT sc o' m v1 v2 = true.
Proof.
  intros sc o o' s1 s2 m a b b1 b2 W UE UD U F Ta Tb Na Nb Da Db E M1 M2 S1 S2.
  destruct (marshal_unmarshal sc _ W UE UD s1 m a b1 F Ta Da M1 S1) as (v1 & A1 & R1).
  destruct (marshal_unmarshal sc _ W UE UD s2 m b b2 F Tb Db M2 S2) as (v2 & A2 & R2).
  exists v1, v2. split; [exact A1|]. split; [exact A2|].
  assert (wt_msg sc m v1) as T1 by exact (decoded_wt sc _ s1 m a b1 v1 W UE UD F Ta Da M1 S1 A1). assert (wt_msg sc m v2) as T2 by exact (decoded_wt sc _ s2 m b b2 v2 W UE UD F Tb Db M2 S2 A2).
  apply rt_equal in R1; auto. apply rt_equal in R2; auto.
  apply C32_decides in E; auto; try (now right). destruct E as [[-> _]|E]; [inversion Ta|].
  apply C32_any; auto.
  refine (trans_msg sc go_equal go_equal go_equal go_equal go_equal go_equal _ _ (fun m x y => up_eq (sc_up sc) m x y = true) go_equal_trans go_equal_trans (up_eq_trans sc U) m v1 b _ v2 R2).
  refine (trans_msg sc go_equal go_equal go_equal go_equal go_equal go_equal _ _ (fun m x y => up_eq (sc_up sc) m x y = true) go_equal_trans go_equal_trans (up_eq_trans sc U) m v1 a _ b E).
  refine (sym_msg sc go_equal go_equal go_equal go_equal _ (fun m x y => up_eq (sc_up sc) m x y = true) go_equal_sym go_equal_sym (up_eq_sym sc U) m a v1 R1).
Qed.
Print Assumptions C33_decode_alike.
Lemma ex_dec_eq v : decodable ex_sc (fun _ => eq) 0 v -> decodable ex_sc (fun m x y => up_eq (sc_up ex_sc) m x y = true) 0 v.
Proof.
  intros H m x Hw. specialize (H m x Hw). unfold ok_here in *. destruct (md_foreign (md_of ex_sc m)); [|exact H].
  destruct H as (B & x' & E & P). split; [exact B|]. exists x'. split; [exact E|]. rewrite P. apply val_eqb_refl.
Qed.
Example C33_decode_nonvacuous : exists bs bs', wt_msg ex_sc 0 ex_w /\ nan_free ex_sc 0 ex_v /\ nan_free ex_sc 0 ex_w /\
  decodable ex_sc (fun m x y => up_eq (sc_up ex_sc) m x y = true) 0 ex_v /\
  decodable ex_sc (fun m x y => up_eq (sc_up ex_sc) m x y = true) 0 ex_w /\
  MarshalVT ex_sc false 0 ex_v = Ok (Some bs) /\ MarshalVT ex_sc false 0 ex_w = Ok (Some bs') /\ bs <> bs' /\ small bs /\ small bs'.
Proof.
  do 2 eexists. split; [apply ex_w_wt|]. split; [apply ex_free|]. split; [apply (free_b_ok ex_sc 5); reflexivity|].
  split; [apply ex_dec_eq, ex_decodable|].
  split; [apply ex_dec_eq; apply (decodable_b_ok ex_sc ex_foreign ex_unknown _ (fun m x _ => ex_foreign_ok m x) ex_unknown_ok 5); reflexivity|].
  split; [vm_compute; reflexivity|]. split; [vm_compute; reflexivity|]. split; [discriminate|]. split; vm_compute; reflexivity.
Qed.
