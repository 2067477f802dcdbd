(** The shipped helpers of the well-known types without sub-messages are what the generator's
    model says. *)
From Coq Require Import ZArith List Bool Lia.
From Verif Require Import Base Schema Value Helpers Size Marshal Unmarshal Equal Clone RecordSpec BaseFacts UmFacts KnownTypes KnownSpec.
Import ListNotations.
Open Scope Z_scope.

(** * The parts of UnmarshalVT *)
(** An outcome of a step on structs as one on values. *)
Definition step_val {P} (f : P -> val) (r : res P (P * Z)) : res val (val * Z) :=
  match r with
  | Ok (m, i) => Ok (f m, i)
  | Err e m => Err e (f m)
  | Panic => Panic
  | NoFuel => NoFuel
  end.
Definition with_has {P A} (h : list Z) (r : res P (A * Z)) : res P (A * Z * list Z) :=
  do x <- r; Ok (fst x, snd x, h).

Lemma agree_loop {P} sc rec env t data (f : P -> val) step : 
  (forall m i, um_step sc rec env t data i (f m) [] = with_has [] (step_val f (step m i))) ->
  forall fuel i m, um_loop sc rec env fuel t data i (f m) [] = with_has [] (step_val f (loop step fuel data i m)).
Proof.
  intros H. induction fuel as [|fuel IH]; intros i m; [reflexivity|]. cbn [um_loop loop].
  destruct (i <? zlen data); [|reflexivity]. rewrite H. destruct (step m i) as [[m' j]|e m'| |]; cbn; auto.
Qed.

Lemma agree_body {P} sc rec env t data (f : P -> val) step m fs n : md_of sc t = known_desc fs n -> filter is_required fs = [] ->
  (forall m i, um_step sc rec env t data i (f m) [] = with_has [] (step_val f (step m i))) ->
  um_body sc rec env t data (f m) = res_val f (unmarshal step data m).
Proof.
  intros E R H. unfold um_body, unmarshal. rewrite E. unfold has_init, required_numbers, has_all. cbn [md_fields known_desc]. rewrite R.
  cbn [map forallb negb]. rewrite (agree_loop sc rec env t data f step H). destruct (loop step _ data 0 m) as [[m' j]|e m'| |]; cbn; auto.
  destruct (zlen data <? j); reflexivity.
Qed.

Lemma agree_skip {P} sc t fs n num data pre (f : P -> val) m : md_of sc t = known_desc fs n -> small data ->
  um_unknown sc t num data pre (f m) = step_val f (skip_field data pre m).
Proof.
  intros E S. unfold um_unknown, skip_field. rewrite E. cbn [md_ext md_keep known_desc in_ext existsb].
  destruct (zslice data pre (zlen data)) as [rest|] eqn:Z; cbn [orpanic rbind]; [|reflexivity].
  destruct (Skip rest) as [sk|e []| |] eqn:K; cbn [lift rbind step_val]; try reflexivity.
  destruct (_ || _) eqn:C; [reflexivity|]. destruct (zlen data <? _) eqn:L; [reflexivity|].
  unfold zslice in Z. destruct (_ && _) eqn:B in Z; [|discriminate]. injection Z as <-.
  apply orb_false_elim in C as [C1 C2]. apply andb_prop in B as [B B3]. apply andb_prop in B as [B1 B2].
  apply Z.ltb_ge in C1, C2, L. apply Z.leb_le in B1, B2.
  assert (small (firstn (Z.to_nat (zlen data - pre)) (skipn (Z.to_nat pre) data))) as S'.
  { unfold small in *. unfold zlen in *. rewrite firstn_length, skipn_length. lia. }
  apply Skip_int in K; [|assumption]. unfold small in S.
  assert (s64 (pre + sk) = pre + sk) as A.
  { unfold s64 in *. rewrite Z.mod_small in * by lia. destruct (_ <? _) eqn:D; [reflexivity|]. apply Z.ltb_ge in D. lia. }
  rewrite A in *. unfold zslice. replace (_ && _) with true; [reflexivity|].
  symmetry. rewrite !andb_true_iff, !Z.leb_le. lia.
Qed.

Lemma varint_into_eq {M} w (get : M -> Z) set data :
  (forall z m, get (set z m) = z) -> (forall z y m, set z (set y m) = set z m) ->
  forall fuel i shift z m,
  varint_into fuel w get set data i shift (set z m) =
  match read_varint fuel w data i shift z with
  | Ok (z', j) => Ok (set z' m, j)
  | Err e _ => Err e (set (varint_left fuel w data i shift z) m)
  | Panic => Panic
  | NoFuel => NoFuel
  end.
Proof.
  intros G T. induction fuel as [|fuel IH]; intros i shift z m; [reflexivity|]. cbn [varint_into read_varint varint_left].
  destruct (64 <=? shift); [reflexivity|]. destruct (zlen data <=? i) eqn:L.
  { unfold zget. apply Z.leb_le in L. replace (i <? zlen data) with false by (symmetry; apply Z.ltb_ge; lia). now rewrite andb_false_r. }
  destruct (zget data i) as [b|]; cbn [orpanic rbind]; [|reflexivity]. rewrite G, T. destruct (b <? 128); [reflexivity|]. apply IH.
Qed.

Lemma number_into {M} w (get : M -> Z) set data i m :
  (forall z m, get (set z m) = z) -> (forall z y m, set z (set y m) = set z m) ->
  varint_into 11 w get set data i 0 (set 0 m) =
  match decodeVarint w 0 data i with
  | Ok (z', j) => Ok (set z' m, j)
  | Err e _ => Err e (set (varint_left 11 w data i 0 0) m)
  | Panic => Panic
  | NoFuel => NoFuel
  end.
Proof. intros G T. apply varint_into_eq; assumption. Qed.

(** * The tactics for a message without sub-messages *)
Ltac known_tag E :=
  unfold um_step, read_tag; rewrite E;
  match goal with |- context [decodeVarint u64 0 ?d ?i] => destruct (decodeVarint u64 0 d i) as [[? ?]|? []| |] end;
  cbn [lift rbind with_has step_val]; try reflexivity;
  match goal with |- context [if ?c =? 4 then _ else _] => destruct (c =? 4) end; [reflexivity|];
  match goal with |- context [if ?c <=? 0 then _ else _] => destruct (c <=? 0) end; [reflexivity|];
  cbn [md_fields known_desc Timestamp_desc Empty_desc Any_desc FieldMask_desc wrapper_desc Struct_desc Value_desc ListValue_desc rbind].
Ltac known_skip E :=
  match goal with
  | S : small ?d |- context [um_unknown _ _ _ ?d _ (?f ?m)] =>
      erewrite (agree_skip _ _ _ _ _ d _ f m E S);
      match goal with |- context [skip_field ?d ?p ?m] => destruct (skip_field d p m) as [[? ?]|? ?| |]; reflexivity end
  end.
Ltac known_find :=
  unfold find_field; cbn [find f_num plain];
  repeat match goal with
  | |- context [find _ (_ :: _)] => cbn [find f_num plain]
  | |- context [match (if ?c =? ?n then Some _ else _) with _ => _ end] => rewrite (Z.eqb_sym c n); destruct (n =? c) eqn:?
  end.
Ltac known_wire :=
  unfold um_field; cbn [f_ty plain packable negb ProtoWireType];
  match goal with |- context [if negb (?c =? ?n) then _ else _] => destruct (c =? n) eqn:?; cbn [negb]; [|reflexivity] end;
  unfold fieldItem; cbn [classify].
Ltac known_num :=
  match goal with
  | |- context [varint_into] =>
      rewrite number_into by reflexivity
  | _ => idtac
  end;
  unfold decodeNumber, number_start; cbn [classify in_place varint_conv fixed_conv varint_post];
  match goal with
  | |- context [decodeVarint ?w 0 ?d ?i] => destruct (decodeVarint w 0 d i) as [[? ?]|? []| |]; reflexivity
  | |- context [decodeFixed ?n ?d ?i] => destruct (decodeFixed n d i) as [[? ?]|? []| |]; reflexivity
  end.

Lemma Timestamp_um sc rec t data m i : md_of sc t = Timestamp_desc -> small data ->
  um_step sc rec (safe_env sc) t data i (Timestamp_val m) [] = with_has [] (step_val Timestamp_val (Timestamp_step data m i)).
Proof.
  intros E S. unfold Timestamp_step. known_tag E. known_find.
  - known_wire. destruct m as [m|]; [|reflexivity]. cbn [on]. known_num.
  - known_wire. destruct m as [m|]; [|reflexivity]. cbn [on]. known_num.
  - known_skip E.
Qed.
Ltac known_len :=
  match goal with
  | |- context [decodeLen ?b ?d ?i] => destruct (decodeLen b d i) as [[? ?]|? []| |]; cbn [lift rbind]; try reflexivity
  end;
  match goal with |- context [zslice ?d ?i ?j] => destruct (zslice d i j); cbn [orpanic rbind]; [|reflexivity] end.

Lemma Empty_um sc rec t data m i : md_of sc t = Empty_desc -> small data ->
  um_step sc rec (safe_env sc) t data i (Empty_val m) [] = with_has [] (step_val Empty_val (Empty_step data m i)).
Proof. intros E S. unfold Empty_step. known_tag E. known_find. known_skip E. Qed.

Lemma Any_um sc rec t data m i : md_of sc t = Any_desc -> small data ->
  um_step sc rec (safe_env sc) t data i (Any_val m) [] = with_has [] (step_val Any_val (Any_step data m i)).
Proof.
  intros E S. unfold Any_step. known_tag E. known_find.
  - known_wire. known_len. destruct m as [m|]; reflexivity.
  - known_wire. known_len. destruct m as [m|]; reflexivity.
  - known_skip E.
Qed.

Lemma FieldMask_um sc rec t data m i : md_of sc t = FieldMask_desc -> small data ->
  um_step sc rec (safe_env sc) t data i (FieldMask_val m) [] = with_has [] (step_val FieldMask_val (FieldMask_step data m i)).
Proof.
  intros E S. unfold FieldMask_step. known_tag E. known_find.
  - known_wire. known_len. destruct m as [[[paths|]]|]; cbn; [|reflexivity|reflexivity]. now rewrite map_app.
  - known_skip E.
Qed.

Lemma DoubleValue_um sc rec t data m i : md_of sc t = wrapper_desc KDouble -> small data ->
  um_step sc rec (safe_env sc) t data i (NumberValue_val m) [] = with_has [] (step_val NumberValue_val (DoubleValue_step data m i)).
Proof.
  intros E S. unfold DoubleValue_step. known_tag E. known_find; [|known_skip E].
  known_wire. destruct m as [m|]; known_num.
Qed.
Lemma FloatValue_um sc rec t data m i : md_of sc t = wrapper_desc KFloat -> small data ->
  um_step sc rec (safe_env sc) t data i (NumberValue_val m) [] = with_has [] (step_val NumberValue_val (FloatValue_step data m i)).
Proof.
  intros E S. unfold FloatValue_step. known_tag E. known_find; [|known_skip E].
  known_wire. destruct m as [m|]; known_num.
Qed.
Lemma Int64Value_um sc rec t data m i : md_of sc t = wrapper_desc KInt64 -> small data ->
  um_step sc rec (safe_env sc) t data i (NumberValue_val m) [] = with_has [] (step_val NumberValue_val (Int64Value_step data m i)).
Proof.
  intros E S. unfold Int64Value_step. known_tag E. known_find; [|known_skip E].
  known_wire. destruct m as [m|]; [|reflexivity]. cbn [on]. known_num.
Qed.
Lemma UInt64Value_um sc rec t data m i : md_of sc t = wrapper_desc KUint64 -> small data ->
  um_step sc rec (safe_env sc) t data i (NumberValue_val m) [] = with_has [] (step_val NumberValue_val (UInt64Value_step data m i)).
Proof.
  intros E S. unfold UInt64Value_step. known_tag E. known_find; [|known_skip E].
  known_wire. destruct m as [m|]; [|reflexivity]. cbn [on]. known_num.
Qed.
Lemma Int32Value_um sc rec t data m i : md_of sc t = wrapper_desc KInt32 -> small data ->
  um_step sc rec (safe_env sc) t data i (NumberValue_val m) [] = with_has [] (step_val NumberValue_val (Int32Value_step data m i)).
Proof.
  intros E S. unfold Int32Value_step. known_tag E. known_find; [|known_skip E].
  known_wire. destruct m as [m|]; [|reflexivity]. cbn [on]. known_num.
Qed.
Lemma UInt32Value_um sc rec t data m i : md_of sc t = wrapper_desc KUint32 -> small data ->
  um_step sc rec (safe_env sc) t data i (NumberValue_val m) [] = with_has [] (step_val NumberValue_val (UInt32Value_step data m i)).
Proof.
  intros E S. unfold UInt32Value_step. known_tag E. known_find; [|known_skip E].
  known_wire. destruct m as [m|]; [|reflexivity]. cbn [on]. known_num.
Qed.
Lemma BoolValue_um sc rec t data m i : md_of sc t = wrapper_desc KBool -> small data ->
  um_step sc rec (safe_env sc) t data i (BoolValue_val m) [] = with_has [] (step_val BoolValue_val (BoolValue_step data m i)).
Proof.
  intros E S. unfold BoolValue_step. known_tag E. known_find; [|known_skip E].
  known_wire. unfold decodeNumber, number_start; cbn [classify in_place varint_conv fixed_conv varint_post orpanic rbind].
  match goal with |- context [decodeVarint ?w 0 ?d ?i] => destruct (decodeVarint w 0 d i) as [[v ?]|? []| |]; try reflexivity end.
  destruct m as [m|]; cbn [fst snd rbind lift]; destruct (v =? 0) eqn:V; cbn; rewrite ?V; reflexivity.
Qed.
Lemma StringValue_um sc rec t data m i : md_of sc t = wrapper_desc KString -> small data ->
  um_step sc rec (safe_env sc) t data i (StringValue_val m) [] = with_has [] (step_val StringValue_val (StringValue_step data m i)).
Proof.
  intros E S. unfold StringValue_step. known_tag E. known_find; [|known_skip E].
  known_wire. known_len. destruct m as [m|]; reflexivity.
Qed.
Lemma BytesValue_um sc rec t data m i : md_of sc t = wrapper_desc KBytes -> small data ->
  um_step sc rec (safe_env sc) t data i (BytesValue_val m) [] = with_has [] (step_val BytesValue_val (BytesValue_step data m i)).
Proof.
  intros E S. unfold BytesValue_step. known_tag E. known_find; [|known_skip E].
  known_wire. known_len. destruct m as [m|]; reflexivity.
Qed.

(** * The rest *)
Lemma rbind_ok {P A} (r : res P A) : (do x <- r; Ok x) = r.
Proof. destruct r; reflexivity. Qed.
Lemma key_byte num wt b st : Z.lor (u32 (Z.shiftl (u32 num) 3)) (u32 wt) = b -> b <= 127 -> encodeKey num wt st = put_byte b st.
Proof.
  intros E B. unfold encodeKey. rewrite E. cbn [key_bytes]. destruct (127 <? b) eqn:C; [apply Z.ltb_lt in C; lia|].
  cbn [rev app map run_all]. apply rbind_ok.
Qed.
(** Reduce encodeKey of a literal key to its byte. *)
Ltac keys := repeat (erewrite key_byte by (vm_compute; first [reflexivity | discriminate])).

(** What has to be shown for a message without sub-messages. *)
Lemma flat_agrees {T} sc t (f : option T -> val) members fs n sizeVT toSized step equalVT cloneVT :
  f = ptr_val members -> md_of sc t = known_desc fs n -> filter is_required fs = [] ->
  (forall m, sizeVT m = SizeVT sc t (f m)) ->
  (forall strict m buf, toSized m buf = MarshalToSizedBufferVT sc strict t (f m) buf) ->
  (forall rec data m i, small data -> um_step sc rec (safe_env sc) t data i (f m) [] = with_has [] (step_val f (step data m i))) ->
  (forall o a b, equalVT (o []) a b = EqualVT sc o t (f a) (f b)) ->
  (forall m, f (cloneVT m) = CloneVT sc t (f m)) ->
  agrees sc t f (flat_helpers sizeVT toSized step equalVT cloneVT).
Proof.
  intros F E R Hs Hm Hu He Hc. split; cbn.
  - exact Hs.
  - exact Hm.
  - intros strict m. unfold marshal, MarshalVT. rewrite <- Hs. subst f.
    destruct m as [m|]; [|reflexivity]. rewrite (Hm strict). reflexivity.
  - intros strict m arr. unfold marshal_to, MarshalToVT. rewrite <- Hs. destruct (zslice arr 0 (sizeVT m)); cbn; [|reflexivity]. now rewrite (Hm strict).
  - intros data m S. unfold UnmarshalVT. cbn [um_msg]. symmetry. eapply agree_body; eauto.
  - exact He.
  - exact Hc.
Qed.

Ltac run_res :=
  repeat (cbn [rbind fst snd lift orpanic];
    match goal with
    | |- ?x = ?x => reflexivity
    | |- context [if ?b then _ else _] => match b with true => fail 1 | false => fail 1 | _ => destruct b eqn:? end
    | |- context [encodeKey ?n ?w ?st] => erewrite (key_byte n w) by (vm_compute; first [reflexivity | discriminate])
    | |- context [encodeVarint ?x ?st] => destruct (encodeVarint x st) as [?|? []| |]
    | |- context [encodeFixed64 ?x ?st] => destruct (encodeFixed64 x st) as [?|? []| |]
    | |- context [encodeFixed32 ?x ?st] => destruct (encodeFixed32 x st) as [?|? []| |]
    | |- context [put_byte ?x ?st] => destruct (put_byte x st) as [?|? []| |]
    | |- context [put_bytes ?x ?st] => destruct (put_bytes x st) as [?|? []| |]
    end); cbn [rbind fst snd lift orpanic]; try reflexivity.
Lemma bytes_of b : vbytes (bytes_val b) = elems b.
Proof. destruct b; reflexivity. Qed.
Ltac known_size E :=
  let m := fresh "m" in
  intros [m|]; [|reflexivity]; unfold SizeVT; cbn [size_msg ptr_val size_body]; rewrite E; cbn;
  unfold implicit_set; cbn.
Ltac known_marshal E :=
  let m := fresh "m" in
  intros strict [m|] buf; [|reflexivity]; try destruct m as [[]]; unfold MarshalToSizedBufferVT; cbn [marshal_msg ptr_val marshal_body]; rewrite E;
  cbn -[encodeVarint encodeKey put_byte put_bytes encodeFixed64 encodeFixed32 SizeOfVarint];
  unfold written, put_counted, implicit_set, encodeBool; cbn -[encodeVarint encodeKey put_byte put_bytes encodeFixed64 encodeFixed32 SizeOfVarint];
  rewrite ?bytes_of; destruct strict; run_res.
Ltac known_equal E :=
  let a := fresh "a" in let b := fresh "b" in
  intros o [a|] [b|]; [|reflexivity..]; unfold EqualVT; cbn [equal_msg]; unfold equal_body; cbn [ptr_val ptr_eqb]; rewrite E;
  unfold equal; cbn [same_ptr].
Ltac known_clone E :=
  let m := fresh "m" in
  intros [m|]; [|reflexivity]; unfold CloneVT, CloneVT_from; cbn [clone_msg ptr_val clone_body]; rewrite E; cbn.

Lemma Timestamp_agrees sc t : md_of sc t = Timestamp_desc -> agrees sc t Timestamp_val Timestamp_helpers.
Proof.
  intros E. unfold Timestamp_helpers. eapply flat_agrees; [reflexivity|exact E|reflexivity| | | | |]; unfold Timestamp_val.
  - known_size E. destruct (Seconds m =? 0), (Nanos m =? 0); cbn; lia.
  - known_marshal E.
  - intros. now apply Timestamp_um.
  - unfold Timestamp_EqualVT. known_equal E. cbn. destruct (o []), (Seconds a =? Seconds b), (Nanos a =? Nanos b); reflexivity.
  - known_clone E. reflexivity.
Qed.
Lemma Empty_agrees sc t : md_of sc t = Empty_desc -> agrees sc t Empty_val Empty_helpers.
Proof.
  intros E. unfold Empty_helpers. eapply flat_agrees; [reflexivity|exact E|reflexivity| | | | |]; unfold Empty_val.
  - known_size E. reflexivity.
  - known_marshal E.
  - intros. now apply Empty_um.
  - unfold Empty_EqualVT. known_equal E. cbn. destruct (o []); reflexivity.
  - known_clone E. reflexivity.
Qed.
Lemma same_bytes_val a b : val_eqb (bytes_val a) (bytes_val b) = same_bytes a b.
Proof. destruct a, b; reflexivity. Qed.
Lemma same_bytes_elems a b : same_bytes a b = true -> str_eqb (elems a) (elems b) = true.
Proof. destruct a, b; cbn; auto; discriminate. Qed.
Lemma Any_agrees sc t : md_of sc t = Any_desc -> agrees sc t Any_val Any_helpers.
Proof.
  intros E. unfold Any_helpers. eapply flat_agrees; [reflexivity|exact E|reflexivity| | | | |]; unfold Any_val.
  - known_size E. rewrite bytes_of. destruct (0 <? zlen (TypeUrl m)), (0 <? zlen (elems (AnyValue m))); cbn; lia.
  - known_marshal E.
  - intros. now apply Any_um.
  - unfold Any_EqualVT. known_equal E. cbn -[str_eqb]. rewrite same_bytes_val. unfold compareScalar, scalar_eqb, compareBytes; cbn -[str_eqb]. rewrite !bytes_of.
    change (if list_eq_dec Z.eq_dec (TypeUrl a) (TypeUrl b) then true else false) with (str_eqb (TypeUrl a) (TypeUrl b)).
    destruct (o []), (str_eqb (TypeUrl a) (TypeUrl b)), (same_bytes (AnyValue a) (AnyValue b)), (str_eqb (elems (AnyValue a)) (elems (AnyValue b))); reflexivity.
  - known_clone E. unfold clone_field; cbn. destruct (AnyValue m) as [v|]; reflexivity.
Qed.
Lemma DoubleValue_agrees sc t : md_of sc t = wrapper_desc KDouble -> agrees sc t NumberValue_val DoubleValue_helpers.
Proof.
  intros E. unfold DoubleValue_helpers. eapply flat_agrees; [reflexivity|exact E|reflexivity| | | | |]; unfold NumberValue_val.
  - known_size E. destruct (is_zero KDouble (number m)) eqn:Z; cbn in Z; rewrite ?Z; reflexivity.
  - known_marshal E.
  - intros. now apply DoubleValue_um.
  - unfold DoubleValue_EqualVT. known_equal E. cbn -[num_eqb]. unfold compareScalar, scalar_eqb; cbn -[num_eqb].
    destruct (o []), (number a =? number b), (num_eqb KDouble (number a) (number b)); reflexivity.
  - known_clone E. reflexivity.
Qed.
Lemma FloatValue_agrees sc t : md_of sc t = wrapper_desc KFloat -> agrees sc t NumberValue_val FloatValue_helpers.
Proof.
  intros E. unfold FloatValue_helpers. eapply flat_agrees; [reflexivity|exact E|reflexivity| | | | |]; unfold NumberValue_val.
  - known_size E. destruct (is_zero KFloat (number m)) eqn:Z; cbn in Z; rewrite ?Z; reflexivity.
  - known_marshal E.
  - intros. now apply FloatValue_um.
  - unfold FloatValue_EqualVT. known_equal E. cbn -[num_eqb]. unfold compareScalar, scalar_eqb; cbn -[num_eqb].
    destruct (o []), (number a =? number b), (num_eqb KFloat (number a) (number b)); reflexivity.
  - known_clone E. reflexivity.
Qed.
Lemma Int64Value_agrees sc t : md_of sc t = wrapper_desc KInt64 -> agrees sc t NumberValue_val Int64Value_helpers.
Proof.
  intros E. unfold Int64Value_helpers. eapply flat_agrees; [reflexivity|exact E|reflexivity| | | | |]; unfold NumberValue_val.
  - known_size E. destruct (number m =? 0); cbn; lia.
  - known_marshal E.
  - intros. now apply Int64Value_um.
  - unfold Int64Value_EqualVT. known_equal E. cbn. destruct (o []), (number a =? number b); reflexivity.
  - known_clone E. reflexivity.
Qed.
Lemma UInt64Value_agrees sc t : md_of sc t = wrapper_desc KUint64 -> agrees sc t NumberValue_val UInt64Value_helpers.
Proof.
  intros E. unfold UInt64Value_helpers. eapply flat_agrees; [reflexivity|exact E|reflexivity| | | | |]; unfold NumberValue_val.
  - known_size E. destruct (number m =? 0); cbn; lia.
  - known_marshal E.
  - intros. now apply UInt64Value_um.
  - unfold UInt64Value_EqualVT. known_equal E. cbn. destruct (o []), (number a =? number b); reflexivity.
  - known_clone E. reflexivity.
Qed.
Lemma Int32Value_agrees sc t : md_of sc t = wrapper_desc KInt32 -> agrees sc t NumberValue_val Int32Value_helpers.
Proof.
  intros E. unfold Int32Value_helpers. eapply flat_agrees; [reflexivity|exact E|reflexivity| | | | |]; unfold NumberValue_val.
  - known_size E. destruct (number m =? 0); cbn; lia.
  - known_marshal E.
  - intros. now apply Int32Value_um.
  - unfold Int32Value_EqualVT. known_equal E. cbn. destruct (o []), (number a =? number b); reflexivity.
  - known_clone E. reflexivity.
Qed.
Lemma UInt32Value_agrees sc t : md_of sc t = wrapper_desc KUint32 -> agrees sc t NumberValue_val UInt32Value_helpers.
Proof.
  intros E. unfold UInt32Value_helpers. eapply flat_agrees; [reflexivity|exact E|reflexivity| | | | |]; unfold NumberValue_val.
  - known_size E. destruct (number m =? 0); cbn; lia.
  - known_marshal E.
  - intros. now apply UInt32Value_um.
  - unfold UInt32Value_EqualVT. known_equal E. cbn. destruct (o []), (number a =? number b); reflexivity.
  - known_clone E. reflexivity.
Qed.
Lemma BoolValue_agrees sc t : md_of sc t = wrapper_desc KBool -> agrees sc t BoolValue_val BoolValue_helpers.
Proof.
  intros E. unfold BoolValue_helpers. eapply flat_agrees; [reflexivity|exact E|reflexivity| | | | |]; unfold BoolValue_val.
  - known_size E. destruct (boolean m); reflexivity.
  - known_marshal E.
  - intros. now apply BoolValue_um.
  - unfold BoolValue_EqualVT. known_equal E. destruct (o []), a as [[]], b as [[]]; reflexivity.
  - known_clone E. reflexivity.
Qed.
Lemma StringValue_agrees sc t : md_of sc t = wrapper_desc KString -> agrees sc t StringValue_val StringValue_helpers.
Proof.
  intros E. unfold StringValue_helpers. eapply flat_agrees; [reflexivity|exact E|reflexivity| | | | |]; unfold StringValue_val.
  - known_size E. destruct (0 <? zlen (string m)); cbn; lia.
  - known_marshal E.
  - intros. now apply StringValue_um.
  - unfold StringValue_EqualVT. known_equal E. cbn -[str_eqb]. unfold compareScalar, scalar_eqb; cbn -[str_eqb].
    change (if list_eq_dec Z.eq_dec (string a) (string b) then true else false) with (str_eqb (string a) (string b)).
    destruct (o []), (str_eqb (string a) (string b)); reflexivity.
  - known_clone E. reflexivity.
Qed.
Lemma BytesValue_agrees sc t : md_of sc t = wrapper_desc KBytes -> agrees sc t BytesValue_val BytesValue_helpers.
Proof.
  intros E. unfold BytesValue_helpers. eapply flat_agrees; [reflexivity|exact E|reflexivity| | | | |]; unfold BytesValue_val.
  - known_size E. rewrite bytes_of. destruct (0 <? zlen (elems (bytes m))); cbn; lia.
  - unfold BytesValue_MarshalToSizedBufferVT. known_marshal E.
  - intros. now apply BytesValue_um.
  - unfold BytesValue_EqualVT. known_equal E. cbn -[str_eqb]. rewrite same_bytes_val. unfold compareBytes; cbn -[str_eqb]. rewrite !bytes_of.
    destruct (o []), (same_bytes (bytes a) (bytes b)), (str_eqb (elems (bytes a)) (elems (bytes b))); reflexivity.
  - known_clone E. unfold clone_field; cbn. destruct (bytes m); reflexivity.
Qed.
(** * Loops *)
Lemma run_all_app a b st : run_all (a ++ b) st = do st <- run_all a st; run_all b st.
Proof. revert st. induction a as [|f a IH]; intros st; [reflexivity|]. cbn. destruct (f st) as [?|? []| |]; cbn; auto. Qed.
Lemma backward_run {A} (F : A -> mst -> mres) l st : backward F l st = run_all (map F (rev l)) st.
Proof.
  revert st. induction l as [|x l IH]; intros st; [reflexivity|]. cbn. rewrite map_app, run_all_app, IH.
  destruct (run_all _ st) as [?|? []| |]; cbn; auto. now rewrite rbind_ok.
Qed.
Lemma forward_run {A} (F : A -> mst -> mres) l st : forward F l st = run_all (map F l) st.
Proof. revert st. induction l as [|x l IH]; intros st; [reflexivity|]. cbn. destruct (F x st) as [?|? []| |]; cbn; auto. Qed.
Lemma run_all_ext {A B} (g : A -> B) (F : A -> mst -> mres) (G : B -> mst -> mres) l st : (forall x st, In x l -> F x st = G (g x) st) ->
  run_all (map F l) st = run_all (map G (map g l)) st.
Proof.
  revert st. induction l as [|x l IH]; intros st H; [reflexivity|]. cbn. rewrite H by (left; reflexivity).
  destruct (G (g x) st) as [?|? []| |]; cbn; auto. apply IH. intros y s Hy. apply H. now right.
Qed.
Lemma zlen_map {A B} (f : A -> B) l : zlen (map f l) = zlen l.
Proof. unfold zlen. now rewrite map_length. Qed.
Lemma fold_sum {A B} (g : A -> B) (F : A -> Z) (G : B -> Z) l n : (forall x, In x l -> F x = G (g x)) ->
  fold_left (fun n e => n + F e) l n = fold_left (fun n e => n + G e) (map g l) n.
Proof.
  revert n. induction l as [|x l IH]; intros n H; [reflexivity|]. cbn. rewrite H by (left; reflexivity). apply IH. intros y Hy. apply H. now right.
Qed.

Lemma strings_of l : vlist (strings_val l) = map VStr (elems l).
Proof. destruct l; reflexivity. Qed.
Lemma put_string sc rec s st : (do st <- put_counted s st; put_byte 10 st) = encodeTagged sc rec 1 KString (VStr s) st.
Proof. unfold put_counted, encodeTagged, encodeValue; cbn [classify vbytes ProtoWireType]. run_res. Qed.
Lemma same_strings_val a b : (zlen a =? zlen b) && same_strings a b = val_eqb (VList (map VStr a)) (VList (map VStr b)).
Proof.
  revert b. induction a as [|x a IH]; intros [|y b]; try reflexivity.
  - rewrite !zlen_cons. cbn [same_strings map]. change (val_eqb (VList (VStr x :: map VStr a)) (VList (VStr y :: map VStr b))) with (str_eqb x y && val_eqb (VList (map VStr a)) (VList (map VStr b))).
    rewrite <- IH. destruct (Z.eqb_spec (1 + zlen a) (1 + zlen b)), (Z.eqb_spec (zlen a) (zlen b)); try lia; destruct (str_eqb x y); reflexivity.
Qed.
Lemma same_strings_list sc same rec : forall a b i, equal_list sc same rec 0 KString i (map VStr a) (map VStr b) = same_strings a b.
Proof.
  induction a as [|x a IH]; intros [|y b] i; try reflexivity. cbn [map equal_list same_strings]. rewrite IH.
  change (compareKind sc same rec (SElem 0 i) KString false (VStr x) (VStr y)) with (str_eqb x y). destruct (str_eqb x y); reflexivity.
Qed.
Lemma clone_strings sc rec s : forall l i, clone_list sc rec s KString i (map VStr l) = map VStr l.
Proof. induction l as [|x l IH]; intros i; [reflexivity|]. cbn [map clone_list]. now rewrite IH. Qed.
Lemma val_eqb_one a b : val_eqb (VMsg [a] [] []) (VMsg [b] [] []) = val_eqb a b.
Proof. cbn. now rewrite !andb_true_r. Qed.
Lemma FieldMask_agrees sc t : md_of sc t = FieldMask_desc -> agrees sc t FieldMask_val FieldMask_helpers.
Proof.
  intros E. unfold FieldMask_helpers. eapply flat_agrees; [reflexivity|exact E|reflexivity| | | | |]; unfold FieldMask_val.
  - known_size E. rewrite strings_of, zlen_map. destruct (0 <? zlen (elems (Paths m))); [|reflexivity].
    unfold add_all, sum_over. rewrite !Z.add_0_r. apply fold_sum. reflexivity.
  - intros strict [m|] buf; [|reflexivity]. unfold MarshalToSizedBufferVT; cbn [marshal_msg ptr_val marshal_body]; rewrite E.
    unfold FieldMask_MarshalToSizedBufferVT, written. cbn -[encodeTagged put_counted put_byte]. rewrite strings_of, zlen_map.
    destruct (0 <? zlen (elems (Paths m))); [|destruct strict; reflexivity]. rewrite backward_run, <- map_rev.
    match goal with |- context [encodeTagged sc ?r 1 KString] => rewrite (run_all_ext VStr _ (encodeTagged sc r 1 KString)) by (intros; apply put_string) end.
    destruct strict; now rewrite rbind_ok.
  - intros. now apply FieldMask_um.
  - unfold FieldMask_EqualVT. known_equal E. rewrite val_eqb_one. cbn -[zlen val_eqb]. rewrite !strings_of, !zlen_map, same_strings_list.
    destruct (Paths a) as [l|], (Paths b) as [l'|]; cbn [elems strings_val].
    + rewrite <- (same_strings_val l l'). destruct (o []), (zlen l =? zlen l'), (same_strings l l'); reflexivity.
    + destruct (o []), l; reflexivity.
    + destruct (o []), l'; reflexivity.
    + destruct (o []); reflexivity.
  - known_clone E. destruct (Paths m) as [l|]; cbn; [|reflexivity]. unfold clone_field; cbn. do 4 f_equal.
    symmetry. apply clone_strings.
Qed.
