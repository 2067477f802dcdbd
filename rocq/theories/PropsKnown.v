(** Property C56: the helpers shipped for the well-known types (/repo/types/known). *)
From Coq Require Import ZArith List Bool Lia.
From Verif Require Import Base BaseFacts Schema Value Helpers Size Marshal Unmarshal Equal Clone WireSpec Typing RecordSpec MsgSpec
  ContentSpec EqualSpec PropsHelpers PropsMarshal PropsUnmarshal PropsRoundTrip PropsEqual KnownTypes KnownSpec KnownFacts KnownStruct.
Import ListNotations.
Open Scope Z_scope.

(** For every schema with these messages, the shipped helpers do what the generator's code does. *)
Theorem C56_generated : forall sc t,
  (md_of sc t = Timestamp_desc -> agrees sc t Timestamp_val Timestamp_helpers) /\
  (md_of sc t = Empty_desc -> agrees sc t Empty_val Empty_helpers) /\
  (md_of sc t = Any_desc -> agrees sc t Any_val Any_helpers) /\
  (md_of sc t = FieldMask_desc -> agrees sc t FieldMask_val FieldMask_helpers) /\
  (md_of sc t = wrapper_desc KDouble -> agrees sc t NumberValue_val DoubleValue_helpers) /\
  (md_of sc t = wrapper_desc KFloat -> agrees sc t NumberValue_val FloatValue_helpers) /\
  (md_of sc t = wrapper_desc KInt64 -> agrees sc t NumberValue_val Int64Value_helpers) /\
  (md_of sc t = wrapper_desc KUint64 -> agrees sc t NumberValue_val UInt64Value_helpers) /\
  (md_of sc t = wrapper_desc KInt32 -> agrees sc t NumberValue_val Int32Value_helpers) /\
  (md_of sc t = wrapper_desc KUint32 -> agrees sc t NumberValue_val UInt32Value_helpers) /\
  (md_of sc t = wrapper_desc KBool -> agrees sc t BoolValue_val BoolValue_helpers) /\
  (md_of sc t = wrapper_desc KString -> agrees sc t StringValue_val StringValue_helpers) /\
  (md_of sc t = wrapper_desc KBytes -> agrees sc t BytesValue_val BytesValue_helpers).
Proof.
  intros sc t. split; [|split; [|split; [|split; [|split; [|split; [|split; [|split; [|split; [|split; [|split; [|split]]]]]]]]]]]; intros E;
  [now apply Timestamp_agrees|now apply Empty_agrees|now apply Any_agrees|now apply FieldMask_agrees|now apply DoubleValue_agrees|
   now apply FloatValue_agrees|now apply Int64Value_agrees|now apply UInt64Value_agrees|now apply Int32Value_agrees|now apply UInt32Value_agrees|
   now apply BoolValue_agrees|now apply StringValue_agrees|now apply BytesValue_agrees].
Qed.
Print Assumptions C56_generated.
Theorem C56_generated_struct : forall sc ts tv tl,
  md_of sc ts = Struct_desc tv -> md_of sc tv = Value_desc ts tl -> md_of sc tl = ListValue_desc tv ->
  agrees sc ts Struct_val Struct_helpers /\ agrees sc tv Value_val Value_helpers /\ agrees sc tl ListValue_val ListValue_helpers.
Proof.
  intros sc ts tv tl Es Ev El. split; [now apply Struct_agrees with tv tl|]. split; [now apply Value_agrees with ts tl|now apply ListValue_agrees with ts tv].
Qed.
Print Assumptions C56_generated_struct.

(** A schema with all of them; nothing in it is left to upstream. *)
Definition known_sc : schema :=
  mkS [Timestamp_desc; Empty_desc; Any_desc; FieldMask_desc; wrapper_desc KDouble; wrapper_desc KFloat; wrapper_desc KInt64;
       wrapper_desc KUint64; wrapper_desc KInt32; wrapper_desc KUint32; wrapper_desc KBool; wrapper_desc KString; wrapper_desc KBytes;
       Struct_desc 14; Value_desc 13 15; ListValue_desc 14]
    (mkUp (fun _ _ => []) (fun _ _ => true) (fun _ _ => 0) (fun _ _ => None) (fun _ a b => Bool.eqb (is_nil a) (is_nil b)) (fun _ v => v) (fun _ _ => None)).

Lemma known_wf : wf_schema known_sc = true. Proof. reflexivity. Qed.
Lemma known_local m : md_foreign (md_of known_sc m) = false.
Proof. do 16 (destruct m as [|m]; [reflexivity|]). unfold md_of. cbn. now destruct m. Qed.
Lemma known_no_required m f : In f (md_fields (md_of known_sc m)) -> is_required f = false.
Proof.
  do 16 (destruct m as [|m]; [cbn; intuition subst; reflexivity|]). unfold md_of. cbn. now destruct m.
Qed.
Lemma known_enc : up_enc_ok known_sc.
Proof. split; intros m; [intros v|]; intros F; rewrite known_local in F; discriminate. Qed.
Lemma known_dec : up_dec_ok known_sc.
Proof. split; [intros m bs v F; rewrite known_local in F; discriminate|discriminate]. Qed.
Lemma known_eq : up_eq_ok known_sc.
Proof.
  split; try reflexivity; cbn; intros.
  - destruct (is_nil x), (is_nil y); try discriminate; reflexivity.
  - destruct (is_nil x), (is_nil y), (is_nil z); try discriminate; reflexivity.
Qed.
Lemma known_within m v m' x : (m < 16)%nat -> ContentSpec.within known_sc m v m' x -> (m' < 16)%nat.
Proof.
  intros L H. induction H as [|m s u h f k m1 x m' y F Hf Hh K H IH]; [assumption|]. apply IH. clear IH H.
  do 16 (destruct m as [|m]; [cbn in Hf; intuition subst; inversion Hh; subst;
    repeat match goal with E : _ = TField _ _ |- _ => injection E; intros; clear E | E : _ = TMap _ _ |- _ => injection E; intros; clear E end; subst; try discriminate; cbn in K; try discriminate;
    injection K as <-; lia|]). lia.
Qed.
Lemma known_decodable P m v : (m < 16)%nat -> decodable known_sc P m v.
Proof.
  intros L m' x H. unfold ok_here. rewrite known_local. split; [intros _ f; apply known_no_required|].
  intros s u h ->. apply known_within in H; [|assumption]. 
  do 16 (destruct m' as [|m']; [split; [discriminate|]; cbn; intuition subst; discriminate|]). lia.
Qed.
Scheme miss_ind := Minimality for MissingRequired Sort Prop with misssub_ind := Minimality for MissingSub Sort Prop.
Lemma known_complete m v : ~ MissingRequired known_sc m v.
Proof.
  intros H. apply (miss_ind known_sc (fun _ _ => False) (fun _ _ => False)) in H; auto.
  - intros m0 slots u h f Hf R. rewrite (known_no_required m0 f Hf) in R. discriminate.
  - intros m0 x F. rewrite known_local in F. discriminate.
Qed.

Lemma octets_ok s : octets s -> bytes_ok s = true.
Proof. intros H. apply forallb_forall. intros x Hx. unfold octets in H. rewrite Forall_forall in H. apply H in Hx. unfold is_byte. lia. Qed.

Lemma known_dependable {P} t (f : P -> val) h (sound regular receiver : P -> Prop) new :
  (t < 16)%nat -> agrees known_sc t f h -> f new = new_msg (md_of known_sc t) ->
  (forall m, sound m -> wt_msg known_sc t (f m)) ->
  (forall m, sound m -> regular m -> nan_free known_sc t (f m)) ->
  (forall m, sound m -> receiver m -> mergeable known_sc t (f m)) ->
  (forall m, CloneVT_ h m = m) ->
  dependable sound regular receiver new h.
Proof.
  intros L A N T R M C. constructor; [| |exact C].
  - intros strict m H. specialize (T m H).
    destruct (C09_sized_buffer known_sc strict t (f m) (repeat 0 (Z.to_nat (SizeVT known_sc t (f m)))) known_wf known_enc (or_intror T)) as (bs & Ls & E & _).
    { unfold zlen. rewrite repeat_length. lia. }
    assert (MarshalVT known_sc strict t (f m) = Ok (Some bs)) as Em.
    { apply E; [|apply known_complete]. intros F. rewrite F in T. inversion T. }
    exists bs. rewrite (agree_marshal _ _ _ _ A), (agree_size _ _ _ _ A). split; [exact Em|]. split; [exact Ls|]. intros S.
    destruct (C18_round_trip known_sc (fun m x y => up_eq (sc_up known_sc) m x y = true) strict t (f m) bs known_wf known_enc known_dec (known_local t) T (known_decodable _ t _ L) Em S)
      as (v' & Av & _).
    pose proof (agree_unmarshal _ _ _ _ A bs new S) as U. rewrite N in U. unfold accepts in Av. rewrite Av in U.
    destruct (UnmarshalVT_ h bs new) as [m'| | |]; try discriminate. injection U as U. exists m'. split; [reflexivity|].
    intros Rm o. rewrite (agree_equal _ _ _ _ A).
    destruct (C18_equal known_sc o strict t (f m) bs known_wf known_enc known_dec known_eq (known_local t) T (R m H Rm) (known_decodable _ t _ L) Em S) as (v2 & A2 & Q).
    unfold accepts in A2. rewrite Av in A2. injection A2 as <-. now rewrite U.
  - intros data m B S H Hr. pose proof (agree_unmarshal _ _ _ _ A data m S) as U.
    destruct (C19_total known_sc t data (f m) known_wf known_dec (octets_ok _ B) S (conj (T m H) (M m H Hr))) as [(v' & Av & _)|(e & v' & Av & _)];
    unfold accepts in *; rewrite Av in U; destruct (UnmarshalVT_ h data m); try discriminate; eauto.
Qed.

(** Flat messages: what is to be shown. *)
Lemma flat_wt t slots : md_nslots (md_of known_sc t) = length slots ->
  (forall f, In f (md_fields (md_of known_sc t)) -> wt_field known_sc (md_of known_sc t) f (slot slots (f_slot f))) -> wt_msg known_sc t (VMsg slots [] []).
Proof. intros L H. constructor; auto. Qed.
Lemma wt_plain md n s k v : wt_elem known_sc k v -> wt_field known_sc md (plain n s k) v.
Proof. intros. eapply wt_implicit; [reflexivity|assumption]. Qed.
Lemma wt_optional_bytes b : octets (elems b) -> wt_elem known_sc KBytes (bytes_val b).
Proof. destruct b; intros H; constructor. now apply octets_ok. Qed.
Definition no_subs (t : nat) : Prop := forall f k m, In f (md_fields (md_of known_sc t)) -> (exists l, f_ty f = TField l k) \/ (exists kk, f_ty f = TMap kk k) -> sub_of k = Some m -> False.
Lemma flat_nan t v : no_subs t ->
  (forall s u h f k z, v = VMsg s u h -> In f (md_fields (md_of known_sc t)) -> ContentSpec.number f (slot s (f_slot f)) k z -> ~ EqualSpec.nan k z) ->
  nan_free known_sc t v.
Proof.
  intros NS H. split.
  - intros m' s u h f k z W F Hf Hn. inversion W; subst; [eapply H; eauto|]. exfalso.
    match goal with Hh : holds _ _ _ _ |- _ => inversion Hh; subst end; eapply NS; eauto.
  - intros m' x _ F. rewrite known_local in F. discriminate.
Qed.
Lemma flat_merge t s u : no_subs t -> mergeable known_sc t (VMsg s u []).
Proof.
  intros NS. constructor; intros; exfalso; eauto.
Qed.
Ltac flat_subs := intros ? ? ?; cbn; intuition subst; repeat match goal with E : exists _, _ |- _ => destruct E as [? E] end; cbn in *; try discriminate;
  repeat match goal with E : TField _ _ = TField _ _ |- _ => injection E; intros; clear E; subst; discriminate end.
Ltac flat_type :=
  let m := fresh "m" in let H := fresh "H" in intros [m|] H; [|destruct H]; cbn in H; apply flat_wt; [reflexivity|]; cbn [md_of nth sc_msgs known_sc md_fields known_desc];
  let f := fresh in let Hf := fresh in intros f Hf; cbn in Hf; intuition subst.
Ltac flat_number :=
  let s := fresh in let H := fresh in let Hf := fresh in let Hn := fresh in intros s ? ? ? ? ? H Hf Hn; injection H as <- <- <-; cbn in Hf; intuition subst; inversion Hn; subst;
  repeat match goal with E : _ = TField _ _ |- _ => injection E; intros; clear E | E : _ = TMap _ _ |- _ => discriminate E end; subst; try discriminate.
Lemma range k z : in_range k z = true -> wt_elem known_sc k (VInt z). Proof. now constructor. Qed.

(** The helpers of messages without sub-messages. *)
Theorem C56_flat :
  dependable Timestamp_sound (fun _ => True) (fun _ => True) (Some (mkTimestamp 0 0)) Timestamp_helpers /\
  dependable Empty_sound (fun _ => True) (fun _ => True) (Some mkEmpty) Empty_helpers /\
  dependable Any_sound (fun _ => True) (fun _ => True) (Some (mkAny [] None)) Any_helpers /\
  dependable FieldMask_sound (fun _ => True) (fun _ => True) (Some (mkFieldMask None)) FieldMask_helpers /\
  dependable (NumberValue_sound uint64) (sound_ptr (fun m => ~ nan64 (number m))) (fun _ => True) (Some (mkNumberValue 0)) DoubleValue_helpers /\
  dependable (NumberValue_sound uint32) (sound_ptr (fun m => ~ nan32 (number m))) (fun _ => True) (Some (mkNumberValue 0)) FloatValue_helpers /\
  dependable (NumberValue_sound int64) (fun _ => True) (fun _ => True) (Some (mkNumberValue 0)) Int64Value_helpers /\
  dependable (NumberValue_sound uint64) (fun _ => True) (fun _ => True) (Some (mkNumberValue 0)) UInt64Value_helpers /\
  dependable (NumberValue_sound int32) (fun _ => True) (fun _ => True) (Some (mkNumberValue 0)) Int32Value_helpers /\
  dependable (NumberValue_sound uint32) (fun _ => True) (fun _ => True) (Some (mkNumberValue 0)) UInt32Value_helpers /\
  dependable BoolValue_sound (fun _ => True) (fun _ => True) (Some (mkBoolValue false)) BoolValue_helpers /\
  dependable StringValue_sound (fun _ => True) (fun _ => True) (Some (mkStringValue [])) StringValue_helpers /\
  dependable BytesValue_sound (fun _ => True) (fun _ => True) (Some (mkBytesValue None)) BytesValue_helpers.
Proof.
  split; [|split; [|split; [|split; [|split; [|split; [|split; [|split; [|split; [|split; [|split; [|split]]]]]]]]]]].
  - apply (known_dependable 0 Timestamp_val); [lia|now apply Timestamp_agrees|reflexivity| | | |].
    + flat_type; apply wt_plain, range; unfold int64, int32 in *; cbn; lia.
    + intros [m|] H _; [|destruct H]. apply flat_nan; [flat_subs|]. flat_number; cbn; auto.
    + intros [m|] H _; [|destruct H]. apply flat_merge. flat_subs.
    + now intros [[]|].
  - apply (known_dependable 1 Empty_val); [lia|now apply Empty_agrees|reflexivity| | | |].
    + flat_type.
    + intros [m|] H _; [|destruct H]. apply flat_nan; [flat_subs|]. flat_number.
    + intros [m|] H _; [|destruct H]. apply flat_merge. flat_subs.
    + now intros [[]|].
  - apply (known_dependable 2 Any_val); [lia|now apply Any_agrees|reflexivity| | | |].
    + flat_type; apply wt_plain; cbn; [constructor; now apply octets_ok|now apply wt_optional_bytes].
    + intros [m|] H _; [|destruct H]. apply flat_nan; [flat_subs|]. flat_number; cbn; auto.
    + intros [m|] H _; [|destruct H]. apply flat_merge. flat_subs.
    + now intros [[? []]|].
  - apply (known_dependable 3 FieldMask_val); [lia|now apply FieldMask_agrees|reflexivity| | | |].
    + flat_type. destruct (Paths m) as [l|]; cbn; [|now constructor]. eapply wt_list; [reflexivity|]. intros x Hx. apply in_map_iff in Hx as (p & <- & Hp).
      constructor. cbn in *. rewrite Forall_forall in *. now apply octets_ok, H.
    + intros [m|] H _; [|destruct H]. apply flat_nan; [flat_subs|]. flat_number; cbn; auto.
    + intros [m|] H _; [|destruct H]. apply flat_merge. flat_subs.
    + now intros [[[]]|].
  - apply (known_dependable 4 NumberValue_val); [lia|now apply DoubleValue_agrees|reflexivity| | | |].
    + flat_type; apply wt_plain, range; unfold uint64 in *; cbn; lia.
    + intros [m|] H R; [|destruct H]. apply flat_nan; [flat_subs|]. flat_number; cbn; auto.
    + intros [m|] H _; [|destruct H]. apply flat_merge. flat_subs.
    + now intros [[]|].
  - apply (known_dependable 5 NumberValue_val); [lia|now apply FloatValue_agrees|reflexivity| | | |].
    + flat_type; apply wt_plain, range; unfold uint32 in *; cbn; lia.
    + intros [m|] H R; [|destruct H]. apply flat_nan; [flat_subs|]. flat_number; cbn; auto.
    + intros [m|] H _; [|destruct H]. apply flat_merge. flat_subs.
    + now intros [[]|].
  - apply (known_dependable 6 NumberValue_val); [lia|now apply Int64Value_agrees|reflexivity| | | |].
    + flat_type; apply wt_plain, range; unfold int64 in *; cbn; lia.
    + intros [m|] H R; [|destruct H]. apply flat_nan; [flat_subs|]. flat_number; cbn; auto.
    + intros [m|] H _; [|destruct H]. apply flat_merge. flat_subs.
    + now intros [[]|].
  - apply (known_dependable 7 NumberValue_val); [lia|now apply UInt64Value_agrees|reflexivity| | | |].
    + flat_type; apply wt_plain, range; unfold uint64 in *; cbn; lia.
    + intros [m|] H R; [|destruct H]. apply flat_nan; [flat_subs|]. flat_number; cbn; auto.
    + intros [m|] H _; [|destruct H]. apply flat_merge. flat_subs.
    + now intros [[]|].
  - apply (known_dependable 8 NumberValue_val); [lia|now apply Int32Value_agrees|reflexivity| | | |].
    + flat_type; apply wt_plain, range; unfold int32 in *; cbn; lia.
    + intros [m|] H R; [|destruct H]. apply flat_nan; [flat_subs|]. flat_number; cbn; auto.
    + intros [m|] H _; [|destruct H]. apply flat_merge. flat_subs.
    + now intros [[]|].
  - apply (known_dependable 9 NumberValue_val); [lia|now apply UInt32Value_agrees|reflexivity| | | |].
    + flat_type; apply wt_plain, range; unfold uint32 in *; cbn; lia.
    + intros [m|] H R; [|destruct H]. apply flat_nan; [flat_subs|]. flat_number; cbn; auto.
    + intros [m|] H _; [|destruct H]. apply flat_merge. flat_subs.
    + now intros [[]|].
  - apply (known_dependable 10 BoolValue_val); [lia|now apply BoolValue_agrees|reflexivity| | | |].
    + flat_type; apply wt_plain, range; destruct (boolean m); reflexivity.
    + intros [m|] H R; [|destruct H]. apply flat_nan; [flat_subs|]. flat_number; cbn; auto.
    + intros [m|] H _; [|destruct H]. apply flat_merge. flat_subs.
    + now intros [[]|].
  - apply (known_dependable 11 StringValue_val); [lia|now apply StringValue_agrees|reflexivity| | | |].
    + flat_type; apply wt_plain; constructor. now apply octets_ok.
    + intros [m|] H R; [|destruct H]. apply flat_nan; [flat_subs|]. flat_number; cbn; auto.
    + intros [m|] H _; [|destruct H]. apply flat_merge. flat_subs.
    + now intros [[]|].
  - apply (known_dependable 12 BytesValue_val); [lia|now apply BytesValue_agrees|reflexivity| | | |].
    + flat_type; apply wt_plain. now apply wt_optional_bytes.
    + intros [m|] H R; [|destruct H]. apply flat_nan; [flat_subs|]. flat_number; cbn; auto.
    + intros [m|] H _; [|destruct H]. apply flat_merge. flat_subs.
    + now intros [[[]]|].
Qed.
Print Assumptions C56_flat.

(** * Struct, Value, ListValue *)
Lemma fold_in {A} (P : A -> Prop) l e : fold_right (fun e rest => P e /\ rest) True l -> In e l -> P e.
Proof. induction l as [|x l IH]; cbn; [tauto|]. intros [H R] [<-|Hi]; auto. Qed.
Lemma fold_in2 {A} (P Q : A -> Prop) l e : fold_right (fun e rest => P e /\ Q e /\ rest) True l -> In e l -> P e /\ Q e.
Proof. induction l as [|x l IH]; cbn; [tauto|]. intros [H [K R]] [<-|Hi]; auto. Qed.
Lemma keys_nodup (l : list (list Z * KnownTypes.Value)) : NoDup (map fst l) -> NoDup (map fst (map (fun e => (VStr (fst e), Value_val (snd e))) l)).
Proof.
  rewrite map_map. cbn. induction l as [|x l IH]; cbn; intros H; [constructor|]. inversion H; subst. constructor; auto.
  intros Hi. apply in_map_iff in Hi as (y & E & Hy). injection E as E. apply H2. rewrite <- E. now apply in_map.
Qed.

Lemma struct_wt n :
  (forall v, (vdepth (Value_val v) < n)%nat -> Value_all uint64 v -> wt_ptrmsg known_sc 14 (Value_val v)) /\
  (forall s, (vdepth (Struct_val s) < n)%nat -> Struct_all uint64 s -> wt_ptrmsg known_sc 13 (Struct_val s)) /\
  (forall l, (vdepth (ListValue_val l) < n)%nat -> ListValue_all uint64 l -> wt_ptrmsg known_sc 15 (ListValue_val l)).
Proof.
  induction n as [|n [IHv [IHs IHl]]]; [repeat split; intros; lia|].
  assert (forall v, (vdepth (Value_val v) < n)%nat -> Value_all uint64 v -> wt_elem known_sc (KMessage 14) (Value_val v)) as EV.
  { intros v D A. destruct (IHv v D A) as [-> |T]; [eapply wt_nilsub|eapply wt_sub; [|exact T]]; reflexivity. }
  repeat split.
  - intros [|k] D A; [now left|]. right. cbn [Value_val]. apply flat_wt; [reflexivity|]. intros f Hf.
    assert (forall g k' x, In g (md_fields (Value_desc 13 15)) -> f_ty g = TField LOneof k' -> wt_elem known_sc k' x ->
      wt_field known_sc (md_of known_sc 14) f (VOneof (f_num g) x)) as W.
    { intros g k' x Hg Tg X. cbn in Hf. assert (exists kf, f_ty f = TField LOneof kf) as [kf Tf] by (intuition subst; eexists; reflexivity).
      eapply wt_oneof; eauto. cbn in Hf, Hg. intuition subst; reflexivity. }
    assert (f_slot f = 0%nat) as F0 by (cbn in Hf; intuition subst; reflexivity). rewrite F0. cbn [slot nth].
    destruct k as [|z|z|s|b|s|l]; cbn [Kind_val]; cbn in A.
    + apply wt_unset. cbn in Hf. intuition subst; reflexivity.
    + apply (W (mkF 1 0 (TField LOneof KEnum)) KEnum); [cbn; tauto|reflexivity|]. apply range. unfold int32 in A. cbn. lia.
    + apply (W (mkF 2 0 (TField LOneof KDouble)) KDouble); [cbn; tauto|reflexivity|]. apply range. unfold uint64 in A. cbn. lia.
    + apply (W (mkF 3 0 (TField LOneof KString)) KString); [cbn; tauto|reflexivity|]. constructor. now apply octets_ok.
    + apply (W (mkF 4 0 (TField LOneof KBool)) KBool); [cbn; tauto|reflexivity|]. apply range. now destruct b.
    + apply (W (mkF 5 0 (TField LOneof (KMessage 13))) (KMessage 13)); [cbn; tauto|reflexivity|].
      destruct (IHs s ltac:(cbn in D |- *; lia) A) as [-> |T]; [eapply wt_nilsub|eapply wt_sub; [|exact T]]; reflexivity.
    + apply (W (mkF 6 0 (TField LOneof (KMessage 15))) (KMessage 15)); [cbn; tauto|reflexivity|].
      destruct (IHl l ltac:(cbn in D |- *; lia) A) as [-> |T]; [eapply wt_nilsub|eapply wt_sub; [|exact T]]; reflexivity.
  - intros [|[l|]] D A; [now left| |]; right; (apply flat_wt; [reflexivity|]); intros f Hf; cbn in Hf; intuition subst; cbn [f_slot slot nth Struct_val].
    + cbn in A. destruct A as [Nd Al]. eapply wt_map; [reflexivity| | |now apply keys_nodup]; intros e He; apply in_map_iff in He as (e' & <- & He'); cbn [fst snd];
      destruct (fold_in2 _ _ _ _ Al He') as [O V].
      * constructor. now apply octets_ok.
      * apply EV; [|assumption]. pose proof (depth_struct l e' He'); lia.
    + now constructor.
  - intros [|[l|]] D A; [now left| |]; right; (apply flat_wt; [reflexivity|]); intros f Hf; cbn in Hf; intuition subst; cbn [f_slot slot nth ListValue_val].
    + cbn in A. eapply wt_list; [reflexivity|]. intros x Hx. apply in_map_iff in Hx as (e & <- & He). apply EV; [|exact (fold_in _ _ _ A He)].
      pose proof (depth_list l e He); lia.
    + now constructor.
Qed.

(** What occurs in such messages. *)
Definition shaped (N : Z -> Prop) (m : nat) (x : val) : Prop :=
  (m = 14%nat /\ exists v, x = Value_val v /\ Value_all N v) \/
  (m = 13%nat /\ exists v, x = Struct_val v /\ Struct_all N v) \/
  (m = 15%nat /\ exists v, x = ListValue_val v /\ ListValue_all N v).
Ltac types := repeat match goal with E : LOneof = _ \/ LOneof = _ |- _ => destruct E; discriminate | E : LRepeated _ = _ \/ _ |- _ => destruct E; discriminate | E : _ = TField _ _ |- _ => cbn in E; (discriminate E || (injection E; intros; clear E; subst)) | E : _ = TMap _ _ |- _ => cbn in E; (discriminate E || (injection E; intros; clear E; subst)) end.
Lemma within_shaped N m v m' x : ContentSpec.within known_sc m v m' x -> shaped N m v -> shaped N m' x.
Proof.
  intros H. induction H as [|m s u h f k m1 x m' y F Hf Hh K H IH]; [auto|]. intros SH. apply IH. clear IH H.
  destruct SH as [(-> & v & E & A)|[(-> & v & E & A)|(-> & v & E & A)]].
  - destruct v as [|kd]; [discriminate|]. injection E as -> -> ->.
    cbn in Hf. destruct kd as [|z|z|t|b|t|l]; intuition subst; inversion Hh; subst; types; try discriminate; cbn in K; try discriminate;
    repeat match goal with E : _ = slot _ _ |- _ => cbn in E; try discriminate E; injection E as <- end; injection K as <-;
    first [right; left; split; [reflexivity|]; eexists; split; [reflexivity|exact A] | right; right; split; [reflexivity|]; eexists; split; [reflexivity|exact A] | idtac].
  - destruct v as [|[l|]]; [discriminate| |]; injection E as -> -> ->; cbn in Hf; intuition subst; inversion Hh; subst; types; try discriminate.
    + injection K as <-. left. split; [reflexivity|].
      match goal with Hi : In _ (map _ _) |- _ => apply in_map_iff in Hi as (e & Ee & He) end. injection Ee as <- <-. exists (snd e). split; [reflexivity|].
      exact (proj2 (fold_in2 _ _ _ _ (proj2 A) He)).
  - destruct v as [|[l|]]; [discriminate| |]; injection E as -> -> ->; cbn in Hf; intuition subst; inversion Hh; subst; types; try discriminate.
    + injection K as <-. left. split; [reflexivity|].
      match goal with Hi : In _ (map _ _) |- _ => apply in_map_iff in Hi as (e & Ee & He) end. subst. exists e. split; [reflexivity|].
      exact (fold_in _ _ _ A He).
Qed.
Lemma shaped_nan m v : shaped (fun z => ~ nan64 z) m v -> nan_free known_sc m v.
Proof.
  intros SH. split; [|intros m' x _ F; rewrite known_local in F; discriminate].
  intros m' s u h f k z W F Hf Hn. apply (within_shaped _ _ _ _ _ W) in SH.
  destruct SH as [(-> & w & E & A)|[(-> & w & E & A)|(-> & w & E & A)]].
  - destruct w as [|kd]; [discriminate|]. injection E as -> -> ->. cbn in Hf.
    destruct kd as [|y|y|t|b|t|l]; intuition subst; inversion Hn; subst; types; try discriminate;
    repeat match goal with E : _ = slot _ _ |- _ => cbn in E; try discriminate E end; cbn; auto.
    exact (A H).
  - destruct w as [|[l|]]; [discriminate| |]; injection E as -> -> ->; cbn in Hf; intuition subst; inversion Hn; subst; types; try discriminate; cbn; auto.
  - destruct w as [|[l|]]; [discriminate| |]; injection E as -> -> ->; cbn in Hf; intuition subst; inversion Hn; subst; types; try discriminate; cbn; auto.
Qed.

(** CloneVT returns the same content. *)
Lemma value_same n :
  (forall v, (vdepth (Value_val v) < n)%nat -> Value_CloneVT v = v) /\
  (forall s, (vdepth (Struct_val s) < n)%nat -> Struct_CloneVT s = s) /\
  (forall l, (vdepth (ListValue_val l) < n)%nat -> ListValue_CloneVT l = l).
Proof.
  induction n as [|n [IHv [IHs IHl]]]; [repeat split; intros; lia|]. repeat split.
  - intros [|k] D; [reflexivity|]. destruct k as [|z|z|t|b|t|l]; try reflexivity; cbn; do 2 f_equal; [apply IHs|apply IHl]; cbn in D |- *; lia.
  - intros [|[l|]] D; try reflexivity. cbn [Struct_CloneVT]. do 2 f_equal. rewrite <- (map_id l) at 2. apply map_ext_in. intros e He.
    rewrite IHv; [now destruct e|]. pose proof (depth_struct l e He); lia.
  - intros [|[l|]] D; try reflexivity. cbn [ListValue_CloneVT]. do 2 f_equal. rewrite <- (map_id l) at 2. apply map_ext_in. intros e He.
    apply IHv. pose proof (depth_list l e He); lia.
Qed.

Lemma struct_merge s : mergeable known_sc 13 (VMsg [s] [] []).
Proof. constructor; intros; cbn in H; intuition subst; types; try discriminate. Qed.
Lemma list_merge s : mergeable known_sc 15 (VMsg [s] [] []).
Proof.
  constructor; intros; cbn in H; intuition subst; types; try discriminate.
  cbn in *. contradiction.
Qed.

(** The helpers of structpb.  Only a receiver that wraps a nil message is excluded. *)
Theorem C56_struct :
  dependable (Struct_sound uint64) (Struct_all (fun z => ~ nan64 z)) (fun _ => True) (Struct_new None) Struct_helpers /\
  dependable (Value_sound uint64) (Value_all (fun z => ~ nan64 z)) (fun v => ~ nil_member v) (Value_new Kind_nil) Value_helpers /\
  dependable (ListValue_sound uint64) (ListValue_all (fun z => ~ nan64 z)) (fun _ => True) (ListValue_new None) ListValue_helpers.
Proof.
  split; [|split].
  - apply (known_dependable 13 Struct_val); [lia|now apply Struct_agrees with 14%nat 15%nat|reflexivity| | | |].
    + intros m [Nn A]. destruct (proj1 (proj2 (struct_wt (S (vdepth (Struct_val m))))) m ltac:(lia) A) as [E|T]; [destruct m as [|[]]; [contradiction|discriminate..]|exact T].
    + intros m _ R. apply shaped_nan. right; left. eauto.
    + intros [|[l|]] [Nn _] _; [contradiction|apply struct_merge..].
    + intros m. apply (proj1 (proj2 (value_same (S (vdepth (Struct_val m)))))). lia.
  - apply (known_dependable 14 Value_val); [lia|now apply Value_agrees with 13%nat 15%nat|reflexivity| | | |].
    + intros m [Nn A]. destruct (proj1 (struct_wt (S (vdepth (Value_val m)))) m ltac:(lia) A) as [E|T]; [destruct m; [contradiction|discriminate]|exact T].
    + intros m _ R. apply shaped_nan. left. eauto.
    + intros [|k] [Nn _] Rv; [contradiction|]. cbn [Value_val]. constructor; intros; cbn in H; intuition subst; types; try discriminate; cbn in *; try contradiction.
      * injection H1 as <-. destruct k as [|z|z|t|b|t|l]; try discriminate. cbn in H2. injection H2 as <-.
        destruct t as [|[l|]]; [exfalso; apply Rv; now left|apply struct_merge..].
      * injection H1 as <-. destruct k as [|z|z|t|b|t|l]; try discriminate. cbn in H2. injection H2 as <-.
        destruct l as [|[l|]]; [exfalso; apply Rv; now right|apply list_merge..].
    + intros m. apply (proj1 (value_same (S (vdepth (Value_val m))))). lia.
  - apply (known_dependable 15 ListValue_val); [lia|now apply ListValue_agrees with 13%nat 14%nat|reflexivity| | | |].
    + intros m [Nn A]. destruct (proj2 (proj2 (struct_wt (S (vdepth (ListValue_val m))))) m ltac:(lia) A) as [E|T]; [destruct m as [|[]]; [contradiction|discriminate..]|exact T].
    + intros m _ R. apply shaped_nan. right; right. eauto.
    + intros [|[l|]] [Nn _] _; [contradiction|apply list_merge..].
    + intros m. apply (proj2 (proj2 (value_same (S (vdepth (ListValue_val m)))))). lia.
Qed.
Print Assumptions C56_struct.

(** A Timestamp or Duration comes back exactly, whatever the numbers; so do the integer and
    boolean wrappers; text comes back byte for byte. *)
Lemma round_exact {P} sound regular receiver new (h : helpers P) strict m : dependable sound regular receiver new h -> sound m -> regular m ->
  SizeVT_ h m < 9223372036854775800 ->
  exists bs m', MarshalVT_ h strict m = Ok (Some bs) /\ UnmarshalVT_ h bs new = Ok m' /\ EqualVT_ h (fun _ => false) m m' = true.
Proof.
  intros D Hs R L. destruct (dep_marshal _ _ _ _ _ D strict m Hs) as (bs & E & Lb & U). destruct U as (m' & U & Q); [unfold small; lia|].
  exists bs, m'. auto.
Qed.
Lemma varint_short z : 1 <= SizeOfVarint (u64 z) <= 10.
Proof. apply C01_SizeOfVarint. unfold u64. apply Z.mod_pos_bound. lia. Qed.
Definition comes_back {P} (new : P) (h : helpers P) (m m' : P) : Prop :=
  forall strict, exists bs, MarshalVT_ h strict m = Ok (Some bs) /\ UnmarshalVT_ h bs new = Ok m'.
Lemma str_eqb_true a b : str_eqb a b = true -> a = b.
Proof. unfold str_eqb. destruct (list_eq_dec Z.eq_dec a b); [auto|discriminate]. Qed.
Lemma number_exact sound (h : helpers (option NumberValue)) z : dependable sound (fun _ => True) (fun _ => True) (Some (mkNumberValue 0)) h ->
  sound (Some (mkNumberValue z)) -> SizeVT_ h (Some (mkNumberValue z)) <= 11 ->
  (forall m', EqualVT_ h (fun _ => false) (Some (mkNumberValue z)) m' = true -> m' = Some (mkNumberValue z)) ->
  comes_back (Some (mkNumberValue 0)) h (Some (mkNumberValue z)) (Some (mkNumberValue z)).
Proof.
  intros D Hz L Q strict. destruct (round_exact _ _ _ _ h strict (Some (mkNumberValue z)) D) as (bs & m' & E & U & Qm); [assumption|exact Logic.I|lia|].
  exists bs. split; [exact E|]. now rewrite <- (Q m').
Qed.
Ltac exact_number D z :=
  apply (number_exact _ _ _ D); [assumption|cbn -[SizeOfVarint u64 Z.add]|];
  [try change z with (u64 z); pose proof (varint_short z); destruct (z =? 0); cbn -[SizeOfVarint u64 Z.add]; lia|];
  intros [[x]|] Q; [|discriminate Q]; cbn in Q; unfold Int64Value_EqualVT, UInt64Value_EqualVT, Int32Value_EqualVT, UInt32Value_EqualVT, equal in Q; cbn in Q; destruct (Z.eqb_spec z x); [now subst|discriminate Q].
Theorem C56_exact :
  (forall s n, int64 s -> int32 n -> comes_back (Some (mkTimestamp 0 0)) Timestamp_helpers (Some (mkTimestamp s n)) (Some (mkTimestamp s n))) /\
  (forall z, int64 z -> comes_back (Some (mkNumberValue 0)) Int64Value_helpers (Some (mkNumberValue z)) (Some (mkNumberValue z))) /\
  (forall z, uint64 z -> comes_back (Some (mkNumberValue 0)) UInt64Value_helpers (Some (mkNumberValue z)) (Some (mkNumberValue z))) /\
  (forall z, int32 z -> comes_back (Some (mkNumberValue 0)) Int32Value_helpers (Some (mkNumberValue z)) (Some (mkNumberValue z))) /\
  (forall z, uint32 z -> comes_back (Some (mkNumberValue 0)) UInt32Value_helpers (Some (mkNumberValue z)) (Some (mkNumberValue z))) /\
  (forall b, comes_back (Some (mkBoolValue false)) BoolValue_helpers (Some (mkBoolValue b)) (Some (mkBoolValue b))) /\
  (forall s, octets s -> SizeVT_ StringValue_helpers (Some (mkStringValue s)) < 9223372036854775800 ->
    comes_back (Some (mkStringValue [])) StringValue_helpers (Some (mkStringValue s)) (Some (mkStringValue s))).
Proof.
  destruct C56_flat as (Dt & _ & _ & _ & _ & _ & Di64 & Du64 & Di32 & Du32 & Db & Ds & _).
  split; [|split; [|split; [|split; [|split; [|split]]]]].
  - intros s n Hs Hn strict. destruct (round_exact _ _ _ _ _ strict (Some (mkTimestamp s n)) Dt) as (bs & m' & E & U & Q); [now split|exact Logic.I| |].
    { cbn -[SizeOfVarint u64 Z.add]. pose proof (varint_short s). pose proof (varint_short n). destruct (s =? 0), (n =? 0); cbn -[SizeOfVarint u64 Z.add]; lia. }
    exists bs. split; [exact E|]. rewrite U. destruct m' as [[x y]|]; [|discriminate Q]. cbn in Q. unfold Timestamp_EqualVT, equal in Q. cbn in Q.
    destruct (Z.eqb_spec s x); cbn in Q; [|discriminate]. destruct (Z.eqb_spec n y); cbn in Q; [|discriminate]. now subst.
  - intros z Hz. exact_number Di64 z.
  - intros z Hz. exact_number Du64 z.
  - intros z Hz. exact_number Di32 z.
  - intros z Hz. exact_number Du32 z.
  - intros b strict. destruct (round_exact _ _ _ _ _ strict (Some (mkBoolValue b)) Db) as (bs & m' & E & U & Q); [exact Logic.I|exact Logic.I| |].
    { destruct b; reflexivity. }
    exists bs. split; [exact E|]. rewrite U. destruct m' as [[x]|]; [|discriminate Q]. cbn in Q. now destruct b, x.
  - intros s Hs L strict. destruct (round_exact _ _ _ _ _ strict (Some (mkStringValue s)) Ds) as (bs & m' & E & U & Q); [assumption|exact Logic.I|exact L|].
    exists bs. split; [exact E|]. rewrite U. destruct m' as [[x]|]; [|discriminate Q]. cbn in Q. unfold StringValue_EqualVT, equal in Q. cbn -[str_eqb] in Q.
    destruct (str_eqb s x) eqn:F; [|discriminate]. apply str_eqb_true in F. now subst.
Qed.
Print Assumptions C56_exact.

(** A receiver that wraps a nil message does panic. *)
Theorem C56_nil_member_refuted : exists v data, Value_sound uint64 v /\ octets data /\ small data /\
  UnmarshalVT_ Value_helpers data v = Panic.
Proof.
  exists (Value_new (Value_StructValue Struct_nil)), [42; 2; 10; 0]. split; [split; [discriminate|exact Logic.I]|].
  split; [repeat constructor; lia|]. split; reflexivity.
Qed.

(** {"a": [null, 1.5, "x"], "b": {}} through Struct, and a Duration of -1.5 s. *)
Definition known_ex : Struct :=
  Struct_new (Some [([97], Value_new (Value_ListValue (ListValue_new (Some
                       [Value_new (Value_NullValue 0); Value_new (Value_NumberValue 4609434218613702656); Value_new (Value_StringValue [120])]))));
                    ([98], Value_new (Value_StructValue (Struct_new None)))]).
Example C56_nonvacuous :
  Struct_sound uint64 known_ex /\ Struct_all (fun z => ~ nan64 z) known_ex /\
  (exists bs, MarshalVT_ Struct_helpers false known_ex = Ok (Some bs) /\ zlen bs = 38 /\
    match UnmarshalVT_ Struct_helpers bs (Struct_new None) with Ok s' => EqualVT_ Struct_helpers (fun _ => false) known_ex s' | _ => false end = true) /\
  md_of known_sc 13 = Struct_desc 14 /\ md_of known_sc 14 = Value_desc 13 15 /\ md_of known_sc 15 = ListValue_desc 14.
Proof.
  assert (forall N : Z -> Prop, N 4609434218613702656 -> Struct_all N known_ex) as A.
  { intros N H. cbn [known_ex Struct_all Value_all Kind_all ListValue_all fold_right map fst snd].
    assert (forall b, 0 <= b < 256 -> octets [b]) as O by (intros b Hb; repeat constructor; apply Hb).
    repeat split; try (apply O; split; [discriminate|reflexivity]); try exact H; try discriminate.
    constructor; [|repeat constructor; intros []]. intros [E|[]]. discriminate. }
  split; [split; [discriminate|]; apply A; split; [discriminate|reflexivity]|].
  split; [apply A; intros [E _]; vm_compute in E; discriminate|].
  split; [|repeat split].
  eexists. split; [vm_compute; reflexivity|]. split; vm_compute; reflexivity.
Qed.
Example C56_duration : Timestamp_sound (Some (mkTimestamp (-1) (-500000000))) /\
  MarshalVT_ Timestamp_helpers true (Some (mkTimestamp (-1) (-500000000)))
  = Ok (Some [8; 255; 255; 255; 255; 255; 255; 255; 255; 255; 1; 16; 128; 182; 202; 145; 254; 255; 255; 255; 255; 1]).
Proof. split; [cbn; unfold int64, int32; lia|]. vm_compute. reflexivity. Qed.
