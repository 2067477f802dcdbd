(** Properties C15, C16 (decoded messages), C18, C24 (marshalled input) and C30:
    UnmarshalVT after MarshalVT.

    The theorems range over every well-formed schema, every upstream meeting its
    contracts, every well-typed message meeting [decodable] (ContentSpec.v: no nil
    message where one with required fields is expected, unknown bytes well formed,
    no group set, upstream's own round trip up to [P]) and every result [bs] of
    MarshalVT shorter than 2^63 - 8 bytes.  Messages are compared by [same_msg]
    (ContentSpec.v). *)
From Coq Require Import ZArith List Bool Lia Permutation.
From Verif Require Import Base BaseFacts Schema Value Helpers Size Marshal Unmarshal WireSpec Typing RecordSpec MsgSpec
  VarintFacts SkipFacts OrderFacts NumFacts ViewFacts TargetFacts UmFacts LoopFacts DecodeSpec DecodeFacts MergeFacts
  SimFacts MarshalFacts MarshalTop ReorderFacts ContentSpec SameFacts RoundTrip RoundTripTop WithinFacts Ex
  PropsMarshal PropsUnmarshal PropsRecords.
Import ListNotations.
Open Scope Z_scope.

(** * The example message meets the hypotheses. *)
Definition ex_unknown (m : nat) (u : list Z) : bool :=
  match u with
  | [] => true
  | [160; 6; 1] => Nat.eqb m 0
  | _ => false
  end.
Lemma ex_unknown_ok m u : ex_unknown m u = true -> unknown_records ex_sc m u.
Proof.
  intros H. destruct u as [|b u]; [exists []; split; [reflexivity|constructor]|].
  assert (b :: u = [160; 6; 1] /\ m = 0%nat) as [-> ->].
  { unfold ex_unknown in H. repeat (match type of H with context [match ?x with _ => _ end] => is_var x; destruct x; try discriminate H end).
    split; [reflexivity|]. now apply Nat.eqb_eq in H. }
  exists [[160; 6; 1]]. split; [reflexivity|]. constructor; [|constructor].
  exists 100, 0. split.
  - split; [lia|]. split; [|intros r []]. intros f Hf. repeat (destruct Hf as [<-|Hf]; [discriminate|]). destruct Hf.
  - apply (rec_varint false 100 [160; 6] [1]); [tagged|reflexivity|vm_compute; congruence].
Qed.
Definition ex_foreign (m : nat) (v : val) : bool :=
  match m, v with 2%nat, VMsg [VInt 77] [] [] => true | _, _ => false end.
Lemma ex_foreign_ok m x : ex_foreign m x = true -> ok_here ex_sc (fun _ => eq) m x.
Proof.
  unfold ex_foreign. intros H.
  repeat (match type of H with context [match ?x with _ => _ end] => is_var x; destruct x; try discriminate H end).
  split; [reflexivity|]. eexists. split; [vm_compute; reflexivity|]. reflexivity.
Qed.
Lemma ex_decodable : decodable ex_sc (fun _ => eq) 0 ex_v.
Proof. apply (decodable_b_ok ex_sc ex_foreign ex_unknown _ (fun m x _ => ex_foreign_ok m x) ex_unknown_ok 5). reflexivity. Qed.
Lemma ex_decodable' : decodable ex_sc (fun _ => eq) 0 ex_v'.
Proof. apply (decodable_b_ok ex_sc ex_foreign ex_unknown _ (fun m x _ => ex_foreign_ok m x) ex_unknown_ok 5). reflexivity. Qed.

(** * C18 *)
Theorem C18_round_trip : forall sc P strict m v bs,
  wf_schema sc = true -> up_enc_ok sc -> up_dec_ok sc -> md_foreign (md_of sc m) = false ->
  wt_msg sc m v -> decodable sc P m v ->
  MarshalVT sc strict m v = Ok (Some bs) -> small bs ->
  exists v', accepts sc m bs (new_msg (md_of sc m)) v' /\ same_msg sc same_bits zero_normal P m v v'.
Proof. intros. eapply marshal_unmarshal; eauto. Qed.
Print Assumptions C18_round_trip.
Example C18_nonvacuous : exists bs v',
  decodable ex_sc (fun _ => eq) 0 ex_v /\ MarshalVT ex_sc true 0 ex_v = Ok (Some bs) /\ small bs /\
  zlen bs = 96 /\ accepts ex_sc 0 bs (new_msg (md_of ex_sc 0)) v' /\
  member v' 4 = VMap [(VStr [98; 99], ex_req (-7)); (VStr [97], ex_req 1)] /\
  member v' 3 = VList [ex_inner; new_msg (md_of ex_sc 0)].
Proof.
  do 2 eexists. split; [apply ex_decodable|]. split; [vm_compute; reflexivity|]. split; [vm_compute; reflexivity|].
  split; [vm_compute; reflexivity|]. split; [vm_compute; reflexivity|]. split; vm_compute; reflexivity.
Qed.

(** Without [decodable]: a map entry (or list element, or oneof member) that is nil
    although its type has required fields is marshalled, but the bytes are rejected. *)
Theorem C18_nil_required_refuted : exists sc m v bs,
  wf_schema sc = true /\ up_enc_ok sc /\ up_dec_ok sc /\ md_foreign (md_of sc m) = false /\ wt_msg sc m v /\
  MarshalVT sc true m v = Ok (Some bs) /\ small bs /\ is_error (UnmarshalVT sc m bs (new_msg (md_of sc m))).
Proof.
  exists ex_sc, 0%nat,
    (VMsg [VInt 0; VNil; VNil; VNil; VMap [(VStr [97], VNil)]; VNil; VInt 0; VNil; VNil; VNil] [] []).
  eexists. split; [apply ex_wf|]. split; [apply ex_up_ok|]. split; [apply ex_dec_ok|]. split; [reflexivity|].
  split; [now apply (check_ok ex_sc 5)|]. split; [vm_compute; reflexivity|]. split; [vm_compute; reflexivity|].
  do 2 eexists. vm_compute. reflexivity.
Qed.
Print Assumptions C18_nil_required_refuted.

(** * C15 *)
Theorem C15_same_message : forall sc P m v b1 b2,
  wf_schema sc = true -> up_enc_ok sc -> up_dec_ok sc -> md_foreign (md_of sc m) = false ->
  wt_msg sc m v -> decodable sc P m v ->
  MarshalVT sc true m v = Ok (Some b1) -> MarshalVT sc false m v = Ok (Some b2) -> small b1 ->
  exists v1 v2, accepts sc m b1 (new_msg (md_of sc m)) v1 /\ accepts sc m b2 (new_msg (md_of sc m)) v2 /\
    same_msg sc same_bits same_bits (fun m' y z => exists x, P m' x y /\ P m' x z) m v1 v2.
Proof.
  intros sc P m v b1 b2 W UE UD F T DC E1 E2 S1.
  assert (small b2) as S2.
  { destruct (C15_strict_agrees sc W UE) as (ord & ord' & _ & _ & A). destruct (A m v T) as [_ A2].
    assert (~ MissingRequired sc m v) as NM.
    { assert (wt_ptrmsg sc m v) as T' by now right. intros M.
      pose proof (top_marshal sc W UE true m v T' ltac:(intros ->; inversion T)) as TM.
      apply (Initialized_missing sc m v W T') in M. rewrite M, E1 in TM. destruct TM. discriminate. }
    destruct (A2 NM) as (B1 & B2 & L). rewrite E1 in B1. rewrite E2 in B2. injection B1 as ->. injection B2 as ->.
    unfold small in *. lia. }
  destruct (marshal_unmarshal sc P W UE UD true m v b1 F T DC E1 S1) as (v1 & U1 & M1).
  destruct (marshal_unmarshal sc P W UE UD false m v b2 F T DC E2 S2) as (v2 & U2 & M2).
  exists v1, v2. split; [exact U1|]. split; [exact U2|].
  eapply (trans_msg sc same_bits (fun k y x => zero_normal k x y) same_bits zero_normal same_bits same_bits (fun m y x => P m x y) P).
  - intros k x y z -> ->. reflexivity.
  - intros k x y z -> ->. reflexivity.
  - intros m' x y z H1 H2. exists y. auto.
  - eapply sym_msg; [| | |exact M1]; unfold same_bits; auto.
  - exact M2.
Qed.
Print Assumptions C15_same_message.
Example C15_same_nonvacuous : exists b1 b2, decodable ex_sc (fun _ => eq) 0 ex_v /\
  MarshalVT ex_sc true 0 ex_v = Ok (Some b1) /\ MarshalVT ex_sc false 0 ex_v = Ok (Some b2) /\ b1 <> b2 /\ small b1.
Proof.
  do 2 eexists. split; [apply ex_decodable|]. split; [vm_compute; reflexivity|]. split; [vm_compute; reflexivity|].
  split; [discriminate|vm_compute; reflexivity].
Qed.

(** * C16 *)
Theorem C16_same_message : forall sc P strict m v v' b1 b2,
  wf_schema sc = true -> up_enc_ok sc -> up_dec_ok sc -> md_foreign (md_of sc m) = false ->
  wt_msg sc m v -> wt_msg sc m v' -> reorder v v' -> decodable sc P m v -> decodable sc P m v' ->
  MarshalVT sc strict m v = Ok (Some b1) -> MarshalVT sc strict m v' = Ok (Some b2) -> small b1 -> small b2 ->
  exists v1 v2, accepts sc m b1 (new_msg (md_of sc m)) v1 /\ accepts sc m b2 (new_msg (md_of sc m)) v2 /\
    same_msg sc same_bits same_bits (fun m' y z => exists a b, reorder a b /\
      P m' (or_empty sc m' a) y /\ P m' (or_empty sc m' b) z) m v1 v2.
Proof.
  intros sc P strict m v v' b1 b2 W UE UD F T T' R DC DC' E1 E2 S1 S2.
  destruct (marshal_unmarshal sc P W UE UD strict m v b1 F T DC E1 S1) as (v1 & U1 & M1).
  destruct (marshal_unmarshal sc P W UE UD strict m v' b2 F T' DC' E2 S2) as (v2 & U2 & M2).
  exists v1, v2. split; [exact U1|]. split; [exact U2|].
  pose proof (reorder_same sc (fun m x y => exists a b, reorder a b /\ x = or_empty sc m a /\ y = or_empty sc m b) W
    (fun m0 x y _ H => ex_intro _ x (ex_intro _ y (conj H (conj eq_refl eq_refl)))) (Datatypes.S (vdepth v)) m v v' ltac:(lia) T F R) as M.
  assert (same_msg sc same_bits (fun k y x => zero_normal k x y) (fun m y x => P m x y) m v1 v) as M1'
    by (eapply sym_msg; [| | |exact M1]; unfold same_bits; auto).
  assert (same_msg sc same_bits zero_normal (fun m x z => exists a b, reorder a b /\ x = or_empty sc m a /\ P m (or_empty sc m b) z) m v v2) as M2'.
  { eapply (trans_msg sc same_bits same_bits same_bits zero_normal); [| | |exact M|exact M2].
    - intros k x y z -> ->. reflexivity.
    - intros k x y z -> H. exact H.
    - intros m' x y z (a & b & H1 & H2 & ->) H. eauto 6. }
  eapply (trans_msg sc same_bits (fun k y x => zero_normal k x y) same_bits zero_normal); [| | |exact M1'|exact M2'].
  - intros k x y z -> ->. reflexivity.
  - intros k x y z -> ->. reflexivity.
  - intros m' x y z H (a & b & H1 & -> & H3). eauto 6.
Qed.
Print Assumptions C16_same_message.
Example C16_same_nonvacuous : exists b1 b2,
  decodable ex_sc (fun _ => eq) 0 ex_v /\ decodable ex_sc (fun _ => eq) 0 ex_v' /\ reorder ex_v ex_v' /\
  MarshalVT ex_sc false 0 ex_v = Ok (Some b1) /\ MarshalVT ex_sc false 0 ex_v' = Ok (Some b2) /\ b1 <> b2 /\ small b1 /\ small b2.
Proof.
  do 2 eexists. split; [apply ex_decodable|]. split; [apply ex_decodable'|]. split; [apply C16_nonvacuous|].
  split; [vm_compute; reflexivity|]. split; [vm_compute; reflexivity|].
  split; [discriminate|split; vm_compute; reflexivity].
Qed.

(** * C24 *)
(** If UnmarshalVT accepts a prefix of what MarshalVT produced, the prefix is a
    sequence of complete records and the rest is the remaining records. *)
Theorem C24_marshalled : forall sc P strict m v p q v1,
  wf_schema sc = true -> up_enc_ok sc -> up_dec_ok sc -> md_foreign (md_of sc m) = false ->
  wt_msg sc m v -> decodable sc P m v -> MarshalVT sc strict m v = Ok (Some (p ++ q)) -> small (p ++ q) ->
  accepts sc m p (new_msg (md_of sc m)) v1 ->
  exists v' n1 n2, accepts sc m (p ++ q) (new_msg (md_of sc m)) v' /\
    dec_fields sc m p (new_msg (md_of sc m)) v1 n1 /\ dec_fields sc m q v1 v' n2.
Proof.
  intros sc P strict m v p q v1 W UE UD F T DC E S A.
  destruct (marshal_decodes sc P W UE UD strict m v (p ++ q) F T DC E S) as (Bb & v' & D & _).
  assert (accepts sc m (p ++ q) (new_msg (md_of sc m)) v') as A'.
  { destruct (dec_ok sc W UD) as (_ & PD & _).
    specialize (PD _ _ _ _ D (target_new sc W m) Bb S (Datatypes.S (length (p ++ q))) 0 ltac:(lia)).
    unfold decodeMessage in PD. rewrite F in PD. exact PD. }
  inversion D as [? ? ? ? nums F' DF _|]; subst; [|congruence].
  destruct (C24_truncated sc m p q _ v' v1 nums W UD Bb S (target_new sc W m) DF A) as (n1 & n2 & D1 & D2 & _).
  exists v', n1, n2. auto.
Qed.
Print Assumptions C24_marshalled.
(** Of the 97 prefixes of the example encoding, UnmarshalVT accepts those ending at
    one of the 12 record boundaries (after field 7, a oneof member with a required
    field, in particular). *)
Example C24_marshalled_nonvacuous : exists bs, MarshalVT ex_sc true 0 ex_v = Ok (Some bs) /\
  map (fun n => match UnmarshalVT ex_sc 0 (firstn n bs) (new_msg (md_of ex_sc 0)) with Ok _ => true | _ => false end)
    [11; 12; 13; 14; 15]%nat = [true; false; false; false; true].
Proof. eexists. split; [vm_compute; reflexivity|]. vm_compute. reflexivity. Qed.

(** * C30 *)
(** Every number (floats: bit pattern) held by any message within [v], at any depth,
    is held with the same bits, in the same field, by a corresponding message within
    the decoded [v'] — except negative zero in a field without presence. *)
Theorem C30_bits : forall sc P strict m v bs m1 s u h f k z,
  wf_schema sc = true -> up_enc_ok sc -> up_dec_ok sc -> md_foreign (md_of sc m) = false ->
  wt_msg sc m v -> decodable sc P m v -> MarshalVT sc strict m v = Ok (Some bs) -> small bs ->
  within sc m v m1 (VMsg s u h) -> md_foreign (md_of sc m1) = false -> In f (md_fields (md_of sc m1)) ->
  is_num k = true -> number f (slot s (f_slot f)) k z ->
  (f_ty f = TField LImplicit k -> zero_num k z = false) ->
  exists v', accepts sc m bs (new_msg (md_of sc m)) v' /\
  exists x', within sc m v' m1 x' /\ same_msg sc same_bits zero_normal P m1 (VMsg s u h) (or_empty sc m1 x') /\
    number f (member (or_empty sc m1 x') (f_slot f)) k z.
Proof.
  intros sc P strict m v bs m1 s u h f k z W UE UD F T DC E S Hw F1 Hf Nk Nu Z.
  destruct (marshal_decodes sc P W UE UD strict m v bs F T DC E S) as (Bb & _).
  destruct (marshal_unmarshal sc P W UE UD strict m v bs F T DC E S) as (v' & U & M).
  exists v'. split; [exact U|].
  destruct (UnmarshalVT_total sc W UD m bs (new_msg (md_of sc m)) Bb S (target_new sc W m)) as [(x & Ex & [Tx _])|(e & x & Ex & _)]; [|congruence].
  rewrite Ex in U. injection U as ->.
  assert (same_msg sc same_bits zero_normal P m (or_empty sc m v) (or_empty sc m v')) as M'.
  { inversion T; subst. inversion Tx; subst. exact M. }
  destruct (within_same sc same_bits zero_normal P W m v m1 _ Hw F1 v' (or_intror T) (or_intror Tx) M') as (x' & Hw' & Sx).
  exists x'. split; [exact Hw'|]. split; [exact Sx|].
  assert (wt_msg sc m1 (or_empty sc m1 x')) as Tx'.
  { destruct (within_wt sc W m v' m1 x' Hw' (or_intror Tx)) as [->|Tx']; [apply (target_new sc W m1)|]. inversion Tx'; subst. exact Tx'. }
  destruct Tx' as [m1 s' u' h' _ WF _]. inversion Sx as [? ? ? ? ? ? ? SF _]; subst. specialize (SF f Hf). specialize (WF f Hf). cbn [member].
  apply wt_field_inv in WF.
  assert (forall y y', same_value sc same_bits zero_normal P k y y' -> y = VInt z -> y' = VInt z) as SV.
  { intros y y' Q ->. inversion Q as [? ? ? ? Eq|? ? ? K _|? ? ? ? K|? ? ? ? K]; subst; [now rewrite Eq| | |];
      [destruct K; subst; discriminate|destruct k; discriminate|destruct k; discriminate]. }
  inversion Nu as [? ? ? Ty|? l ? ? Ty L|? p ? l ? Ty Hx|? kk ? l y ? Ty Hx|? ? ? Ty]; subst; rewrite Ty in WF;
    match goal with Q : _ = slot s (f_slot f) |- _ => rewrite <- Q in SF end; inversion SF; subst;
    match goal with Q : f_ty f = _ |- _ => rewrite Ty in Q; try discriminate Q; injection Q; intros; subst end;
    try (match goal with L : ?l = _ \/ ?l = _ |- _ => destruct L; discriminate end); try congruence.
  - match goal with Q : zero_normal _ _ _ |- _ => unfold zero_normal in Q; rewrite (Z Ty) in Q; subst end. now apply number_implicit.
  - cbn [deref] in *. match goal with Q : same_value _ _ _ _ _ _ (deref ?b) |- _ => set (b' := b) in *; apply SV in Q; [|reflexivity] end.
    match type of Ty with _ = TField _ ?k => assert (b' = VNil \/ (exists x0, b' = VPtr x0 /\ (is_num k = true \/ k = KString) /\ wt_elem sc k x0) \/ (is_num k = false /\ k <> KString /\ wt_elem sc k b')) as [|[(x0 & Eb & _)|(Nk' & _)]] by (destruct L; subst; exact WF) end.
    + congruence.
    + rewrite Eb in *. cbn in *. subst. eapply number_set; eauto.
    + congruence.
  - match goal with Q : Forall2 _ _ (vlist ?b) |- _ => destruct (Forall2_in _ _ _ _ Q Hx) as (y & Hy & Sy); destruct b eqn:Eb; try contradiction end.
    apply SV in Sy; [|reflexivity]. subst. eapply number_list; eauto.
  - match goal with Q : Permutation _ ?l1, Q2 : Forall2 _ ?l1 (vmap ?b) |- _ =>
      destruct (Forall2_in _ _ _ _ Q2 (Permutation_in _ Q Hx)) as ([y1 y2] & Hy & _ & Sy); destruct b eqn:Eb; try contradiction end.
    apply SV in Sy; [|reflexivity]. cbn in Sy. subst. eapply number_map; eauto.
  - match goal with Q : same_value _ _ _ _ _ _ _ |- _ => apply SV in Q; [|reflexivity] end. subst. eapply number_member; eauto.
Qed.
Print Assumptions C30_bits.
Example C30_nonvacuous :
  within ex_sc 0 ex_v 0 ex_v /\ number (mkF 8 6 (TField LImplicit KDouble)) (member ex_v 6) KDouble 4607182418800017408 /\
  zero_num KDouble 4607182418800017408 = false /\ zero_num KDouble 9218868437227405313 = false.
Proof. split; [apply in_self|]. split; [now apply number_implicit|]. split; reflexivity. Qed.

(** Negative zero in a field without presence is not written: it is read back as
    positive zero. *)
Theorem C30_negative_zero_refuted : exists sc m v bs v' i z,
  wf_schema sc = true /\ up_enc_ok sc /\ up_dec_ok sc /\ md_foreign (md_of sc m) = false /\ wt_msg sc m v /\
  decodable sc (fun _ => eq) m v /\ MarshalVT sc true m v = Ok (Some bs) /\ small bs /\
  accepts sc m bs (new_msg (md_of sc m)) v' /\ member v i = VInt z /\ member v' i <> VInt z.
Proof.
  exists ex_sc, 0%nat,
    (VMsg [VInt 0; VNil; VNil; VNil; VNil; VNil; VInt 9223372036854775808; VNil; VNil; VNil] [] []).
  do 2 eexists. exists 6%nat. eexists. split; [apply ex_wf|]. split; [apply ex_up_ok|]. split; [apply ex_dec_ok|]. split; [reflexivity|].
  split; [now apply (check_ok ex_sc 5)|].
  split; [apply (decodable_b_ok ex_sc ex_foreign ex_unknown _ (fun m x _ => ex_foreign_ok m x) ex_unknown_ok 5); reflexivity|].
  split; [vm_compute; reflexivity|]. split; [vm_compute; reflexivity|]. split; [vm_compute; reflexivity|].
  split; [vm_compute; reflexivity|]. vm_compute. discriminate.
Qed.
Print Assumptions C30_negative_zero_refuted.
