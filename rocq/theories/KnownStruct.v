(** The shipped helpers of structpb.Value, Struct and ListValue are what the generator's model
    says. *)
From Coq Require Import ZArith List Bool Lia Arith.
From Verif Require Import Base Schema Value Helpers Size Marshal Unmarshal Equal Clone RecordSpec BaseFacts UmFacts KnownTypes KnownSpec KnownFacts.
Import ListNotations.
Open Scope Z_scope.

Lemma max_in {A} (f : A -> nat) l x : In x l -> (f x <= fold_right (fun x n => Nat.max (f x) n) 0 l)%nat.
Proof. induction l as [|y l IH]; cbn; [contradiction|]. intros [->|H]; [lia|]. specialize (IH H). lia. Qed.
Lemma max_map {A B} (g : A -> B) (f : B -> nat) l : fold_right (fun x n => Nat.max (f x) n) 0%nat (map g l) = fold_right (fun x n => Nat.max (f (g x)) n) 0%nat l.
Proof. induction l as [|y l IH]; cbn; [reflexivity|]. now rewrite IH. Qed.
Lemma depth_struct l e : In e l -> (vdepth (Value_val (snd e)) + 2 <= vdepth (Struct_val (Struct_new (Some l))))%nat.
Proof.
  intros H. cbn. rewrite (max_map (fun e => (VStr (fst e), Value_val (snd e))) (fun p : val * val => vdepth (snd p))). cbn.
  pose proof (max_in (fun e : list Z * KnownTypes.Value => vdepth (Value_val (snd e))) l e H). cbn in *. lia.
Qed.
Lemma depth_list l e : In e l -> (vdepth (Value_val e) + 2 <= vdepth (ListValue_val (ListValue_new (Some l))))%nat.
Proof.
  intros H. cbn. rewrite (max_map Value_val vdepth). pose proof (max_in (fun e => vdepth (Value_val e)) l e H). cbn in *. lia.
Qed.

Lemma forallb_map {A B} (g : A -> B) (f : B -> bool) l : forallb f (map g l) = forallb (fun x => f (g x)) l.
Proof. induction l as [|x l IH]; cbn; [reflexivity|]. now rewrite IH. Qed.
Lemma forallb_ext_in {A} (f g : A -> bool) l : (forall x, In x l -> f x = g x) -> forallb f l = forallb g l.
Proof. induction l as [|x l IH]; cbn; intros H; [reflexivity|]. rewrite H, IH by auto. reflexivity. Qed.

Section Struct.
Variable sc : schema.
Variables ts tv tl : nat.
Hypothesis Es : md_of sc ts = Struct_desc tv.
Hypothesis Ev : md_of sc tv = Value_desc ts tl.
Hypothesis El : md_of sc tl = ListValue_desc tv.

Lemma struct_sizes n :
  (forall v, (vdepth (Value_val v) < n)%nat -> size_msg sc n tv (Value_val v) = Value_SizeVT v) /\
  (forall s, (vdepth (Struct_val s) < n)%nat -> size_msg sc n ts (Struct_val s) = Struct_SizeVT s) /\
  (forall l, (vdepth (ListValue_val l) < n)%nat -> size_msg sc n tl (ListValue_val l) = ListValue_SizeVT l).
Proof.
  induction n as [|n [IHv [IHs IHl]]]; [repeat split; intros; lia|]. repeat split.
  - intros [|k] D; [reflexivity|]. cbn [size_msg Value_val size_body]. rewrite Ev. 
    destruct k as [|x|x|x|x|x|x]; try reflexivity; cbn -[SizeOfVarint] in D |- *; unfold messageSize.
    + cbn; lia.
    + cbn; lia.
    + rewrite Es. cbn -[SizeOfVarint Struct_SizeVT]. destruct x as [|f]; [reflexivity|].
      rewrite IHs by (cbn in D |- *; lia). destruct f; cbn -[SizeOfVarint Struct_SizeVT]; lia.
    + rewrite El. cbn -[SizeOfVarint ListValue_SizeVT]. destruct x as [|f]; [reflexivity|].
      rewrite IHl by (cbn in D |- *; lia). destruct f; cbn -[SizeOfVarint ListValue_SizeVT]; lia.
  - intros [|[l|]] D; try reflexivity; cbn [size_msg Struct_val size_body]; rewrite Es; [|reflexivity].
    cbn -[SizeOfVarint sum_over map_entry_size vdepth]. rewrite zlen_map. destruct (0 <? zlen l); [|reflexivity].
    rewrite !Z.add_0_r. unfold sum_over. symmetry. apply fold_sum. intros e He.
    assert (vdepth (Value_val (snd e)) < n)%nat as De by (pose proof (depth_struct l e He); lia).
    unfold map_entry_size, map_key_size, map_val_size, messageSize. cbn [fst snd classify vbytes]. rewrite Ev. cbn [known_desc md_foreign Value_desc ProtoWireType].
    change (KeySize 1 2) with 1. change (KeySize 2 2) with 1.
    rewrite (Z.add_assoc 1 (zlen (fst e))).
    destruct (snd e) as [|k] eqn:K; cbn [is_nil Value_val].
    + reflexivity.
    + change (VMsg [Kind_val k] [] []) with (Value_val (Value_new k)). rewrite IHv by assumption. reflexivity.
  - intros [|[l|]] D; try reflexivity; cbn [size_msg ListValue_val size_body]; rewrite El; [|reflexivity].
    cbn -[SizeOfVarint sum_over value_size vdepth]. rewrite zlen_map. destruct (0 <? zlen l); [|reflexivity].
    rewrite !Z.add_0_r. unfold sum_over. symmetry. apply fold_sum. intros e He.
    assert (vdepth (Value_val e) < n)%nat as De by (pose proof (depth_list l e He); lia).
    unfold value_size, messageSize. cbn [fst snd classify vbytes]. rewrite Ev. cbn -[SizeOfVarint size_msg]. rewrite IHv by assumption. reflexivity.
Qed.

Lemma sub_ext c c' st : (forall b, c b = c' b) -> sub_call c st = sub_call c' st.
Proof. intros H. unfold sub_call. destruct st as [b i]. destruct (zslice b 0 i); cbn; [|reflexivity]. now rewrite H. Qed.
Lemma written_ext buf r r' : r = r' -> written buf r = (do st <- r'; Ok (fst st, zlen buf - snd st)).
Proof. now intros ->. Qed.
(** A message with its length and a one-byte key. *)
Lemma put_message_eq rec m num b c v st : md_foreign (md_of sc m) = false -> (forall buf, rec m v buf = c buf) ->
  Z.lor (u32 (Z.shiftl (u32 num) 3)) (u32 2) = b -> b <= 127 ->
  encodeTagged sc rec num (KMessage m) v st = put_message b c st.
Proof.
  intros F H K B. unfold encodeTagged, encodeValue, marshalBackward, put_message. cbn [classify]. rewrite F.
  rewrite (sub_ext (rec m v) c) by assumption. cbn [ProtoWireType].
  destruct (sub_call c st) as [[st' size]|? []| |]; cbn [rbind]; try reflexivity.
  destruct (encodeVarint size st') as [st''|? []| |]; cbn [rbind]; try reflexivity. now apply key_byte.
Qed.

Lemma struct_marshals strict n :
  (forall v buf, (vdepth (Value_val v) < n)%nat -> marshal_msg sc strict n tv (Value_val v) buf = Value_MarshalToSizedBufferVT strict v buf) /\
  (forall s buf, (vdepth (Struct_val s) < n)%nat -> marshal_msg sc strict n ts (Struct_val s) buf = Struct_MarshalToSizedBufferVT strict s buf) /\
  (forall l buf, (vdepth (ListValue_val l) < n)%nat -> marshal_msg sc strict n tl (ListValue_val l) buf = ListValue_MarshalToSizedBufferVT strict l buf).
Proof.
  induction n as [|n [IHv [IHs IHl]]]; [repeat split; intros; lia|]. repeat split.
  - intros [|k] buf D; [reflexivity|]. cbn [marshal_msg Value_val marshal_body Value_MarshalToSizedBufferVT]. rewrite Ev.
    assert (forall f x b, find_field (f_num f) (md_fields (Value_desc ts tl)) = Some f -> Kind_val k = VOneof (f_num f) x ->
      marshal_wrapper sc (marshal_msg sc strict n) f x b = Kind_MarshalToSizedBufferVT strict k b) as W.
    { intros f x b Ff Kx. unfold marshal_wrapper.
      destruct k as [|z|z|z|z|z|z]; try discriminate Kx; cbn in Kx; injection Kx as Kn <-; rewrite <- Kn in Ff; cbn in Ff; injection Ff as <-;
      cbn [Kind_MarshalToSizedBufferVT]; symmetry; apply written_ext; unfold marshal_field; cbn [f_ty f_num classify ProtoWireType vint vbytes].
      - unfold encodeTagged, encodeValue; cbn [classify vint ProtoWireType]; run_res.
      - unfold encodeTagged, encodeValue; cbn [classify vint ProtoWireType]; run_res.
      - unfold encodeTagged, encodeValue, put_counted; cbn [classify vbytes ProtoWireType]; run_res.
      - unfold encodeTagged, encodeValue, encodeBool; cbn [classify vint ProtoWireType]; destruct z; cbn [Z.eqb]; run_res.
      - destruct z as [|f]; [cbn [is_nil Struct_val]; run_res|].
        replace (is_nil _) with false by (destruct f; reflexivity). symmetry.
        apply (put_message_eq (marshal_msg sc strict n)); [now rewrite Es| |reflexivity|lia].
        intros buf'. apply IHs. cbn in D |- *. lia.
      - destruct z as [|f]; [cbn [is_nil ListValue_val]; run_res|].
        replace (is_nil _) with false by (destruct f; reflexivity). symmetry.
        apply (put_message_eq (marshal_msg sc strict n)); [now rewrite El| |reflexivity|lia].
        intros buf'. apply IHl. cbn in D |- *. lia. }
    unfold marshal_unknown. cbn [md_keep Value_desc known_desc rbind]. symmetry. apply written_ext. symmetry. destruct strict.
    + cbn -[sub_call marshal_wrapper Kind_MarshalToSizedBufferVT].
      destruct k as [|x|x|x|x|x|x]; cbn -[sub_call marshal_wrapper Kind_MarshalToSizedBufferVT]; try reflexivity;
      erewrite sub_ext by (intros; apply W; reflexivity); 
      match goal with |- context [sub_call ?c ?st] => destruct (sub_call c st) as [[? ?]|? []| |]; reflexivity end.
    + cbn -[sub_call marshal_wrapper Kind_MarshalToSizedBufferVT].
      destruct k as [|x|x|x|x|x|x]; cbn -[sub_call marshal_wrapper Kind_MarshalToSizedBufferVT]; try reflexivity;
      erewrite sub_ext by (intros; apply W; reflexivity); 
      match goal with |- context [sub_call ?c ?st] => destruct (sub_call c st) as [[? ?]|? []| |]; reflexivity end.
  - intros [|[l|]] buf D; try reflexivity; cbn [marshal_msg Struct_val marshal_body Struct_MarshalToSizedBufferVT]; rewrite Es;
    unfold marshal_unknown; cbn [md_keep Struct_desc known_desc rbind]; symmetry; apply written_ext; symmetry; [|destruct strict; reflexivity].
    transitivity (marshal_field sc (marshal_msg sc strict n) (mkF 1 0 (TMap KString (KMessage tv))) (VMap (map (fun e => (VStr (fst e), Value_val (snd e))) l)) (buf, zlen buf)).
    { destruct strict; cbn -[marshal_field]; apply rbind_ok. }
    cbn [marshal_field f_ty vmap f_num]. rewrite zlen_map. destruct (0 <? zlen l); [|reflexivity].
    rewrite forward_run. symmetry. apply run_all_ext. intros e st He. unfold encodeEntry. cbn [fst snd].
    assert (vdepth (Value_val (snd e)) < n)%nat as De by (pose proof (depth_struct l e He); lia).
    unfold put_message, put_counted, encodeValue at 1 2. cbn [classify]. unfold marshalBackward. rewrite Ev. cbn [md_foreign known_desc Value_desc vbytes ProtoWireType].
    rewrite (sub_ext (marshal_msg sc strict n tv (Value_val (snd e))) (Value_MarshalToSizedBufferVT strict (snd e))) by (intros; now apply IHv).
    destruct (sub_call _ st) as [[st' size]|? []| |]; cbn [rbind]; try reflexivity. run_res.
  - intros [|[l|]] buf D; try reflexivity; cbn [marshal_msg ListValue_val marshal_body ListValue_MarshalToSizedBufferVT]; rewrite El;
    unfold marshal_unknown; cbn [md_keep ListValue_desc known_desc rbind]; symmetry; apply written_ext; symmetry; [|destruct strict; reflexivity].
    transitivity (marshal_field sc (marshal_msg sc strict n) (mkF 1 0 (TField (LRepeated false) (KMessage tv))) (VList (map Value_val l)) (buf, zlen buf)).
    { destruct strict; cbn -[marshal_field]; apply rbind_ok. }
    cbn [marshal_field f_ty vlist f_num]. rewrite zlen_map. destruct (0 <? zlen l); [|reflexivity].
    rewrite backward_run, <- map_rev. symmetry. apply run_all_ext. intros e st He. symmetry. apply in_rev in He.
    assert (vdepth (Value_val e) < n)%nat as De by (pose proof (depth_list l e He); lia).
    apply put_message_eq; [now rewrite Ev| |reflexivity|lia]. intros; now apply IHv.
Qed.

Lemma struct_clones n : let al := fun _ m => new_msg (md_of sc m) in forall path,
  (forall v, (vdepth (Value_val v) < n)%nat -> clone_msg sc al n path tv (Value_val v) = Value_val (Value_CloneVT v)) /\
  (forall s, (vdepth (Struct_val s) < n)%nat -> clone_msg sc al n path ts (Struct_val s) = Struct_val (Struct_CloneVT s)) /\
  (forall l, (vdepth (ListValue_val l) < n)%nat -> clone_msg sc al n path tl (ListValue_val l) = ListValue_val (ListValue_CloneVT l)).
Proof.
  intros al. induction n as [|n IH]; [repeat split; intros; lia|]. intros path. repeat split.
  - intros [|k] D; [reflexivity|]. cbn [clone_msg Value_val clone_body]. unfold al at 1. rewrite Ev.
    destruct (IH (SField 0 :: path)) as [IHv [IHs IHl]].
    destruct k as [|x|x|x|x|x|x]; try reflexivity; cbn -[clone_msg md_of]; unfold clone_member, cloneFieldSingular; cbn -[clone_msg md_of]; [rewrite Es|rewrite El]; cbn -[clone_msg md_of];
    [rewrite IHs by (cbn in D |- *; lia)|rewrite IHl by (cbn in D |- *; lia)]; reflexivity.
  - intros [|[l|]] D; try reflexivity; cbn [clone_msg Struct_val clone_body]; unfold al at 1; rewrite Es; [|reflexivity].
    cbn [Struct_CloneVT Struct_val]. cbn -[clone_field]. do 2 f_equal. unfold clone_field. cbn [f_ty f_slot]. 
    do 2 f_equal. rewrite !map_map. apply map_ext_in. intros e He. cbn [fst snd]. f_equal. unfold cloneFieldSingular. cbn [classify]. rewrite Ev.
    cbn [md_foreign known_desc Value_desc]. apply (IH (SKey 0 (VStr (fst e)) :: path)). pose proof (depth_struct l e He); lia.
  - intros [|[l|]] D; try reflexivity; cbn [clone_msg ListValue_val clone_body]; unfold al at 1; rewrite El; [|reflexivity].
    cbn [ListValue_CloneVT ListValue_val]. cbn -[clone_field]. do 2 f_equal. unfold clone_field. cbn [f_ty f_slot].
    do 2 f_equal. assert (forall e, In e l -> (vdepth (Value_val e) < n)%nat) as De by (intros e He; pose proof (depth_list l e He); lia). clear D.
    generalize 0%nat at 2. induction l as [|x l IHl']; intros i; [reflexivity|]. cbn [map clone_list]. f_equal.
    + unfold cloneFieldSingular. cbn [classify]. rewrite Ev. cbn [md_foreign known_desc Value_desc]. apply (IH (SElem 0 i :: path)). apply De. now left.
    + apply IHl'. intros e He. apply De. now right.
Qed.

Lemma denil_value v : denil sc tv (Value_val v) = Value_val (match v with Value_nil => Value_new Kind_nil | _ => v end).
Proof. destruct v; cbn; [|reflexivity]. rewrite Ev. reflexivity. Qed.
Lemma denil_struct v : denil sc ts (Struct_val v) = Struct_val (match v with Struct_nil => Struct_new None | _ => v end).
Proof. destruct v as [|[]]; cbn; [|reflexivity..]. rewrite Es. reflexivity. Qed.
Lemma denil_list v : denil sc tl (ListValue_val v) = ListValue_val (match v with ListValue_nil => ListValue_new None | _ => v end).
Proof. destruct v as [|[]]; cbn; [|reflexivity..]. rewrite El. reflexivity. Qed.
Lemma map_get_entry (l : list (list Z * KnownTypes.Value)) k : map_get (map (fun e => (VStr (fst e), Value_val (snd e))) l) (VStr k) = option_map Value_val (get_entry l k).
Proof. induction l as [|[k' v] l IH]; [reflexivity|]. cbn. unfold str_eqb. destruct (list_eq_dec Z.eq_dec k k'); [reflexivity|]. exact IH. Qed.

Lemma struct_equals o n : forall path,
  (forall a b, equal_msg sc o n path tv (Value_val a) (Value_val b) = value_equal o n path a b) /\
  (forall a b, equal_msg sc o n path ts (Struct_val a) (Struct_val b) = struct_equal o n path a b) /\
  (forall a b, equal_msg sc o n path tl (ListValue_val a) (ListValue_val b) = list_equal o n path a b).
Proof.
  induction n as [|n IH]; [repeat split; reflexivity|]. intros path.
  assert (forall st p q, compareKind sc (fun st => o (st :: path)) (fun st => equal_msg sc o n (st :: path)) st (KMessage tv) false (Value_val p) (Value_val q)
    = compare_values o (value_equal o n) (st :: path) p q) as CV.
  { intros st p q. unfold compareKind, compareCall, compare_values, call. cbn [classify]. rewrite Ev, !denil_value. cbn [md_foreign known_desc Value_desc].
    destruct (ptr_eqb _ _ _); [reflexivity|]. apply (IH (st :: path)). }
  repeat split.
  - intros a b. cbn [equal_msg value_equal]. unfold equal_body, Value_equal. destruct (ptr_eqb (o path) (Value_val a) (Value_val b)); [reflexivity|].
    destruct a as [|k]; [reflexivity|]. destruct b as [|k']; [reflexivity|]. cbn [Value_val]. rewrite Ev.
    cbn -[equal_oneof equal_msg]. rewrite !andb_true_r. unfold Kind_EqualVT.
    destruct k as [|x|x|x|x|x|x], k' as [|y|y|y|y|y|y]; try reflexivity; cbn -[val_eqb compareKind equal_msg num_eqb str_eqb compare_structs compare_lists Struct_val ListValue_val];
    destruct (o _ && val_eqb _ _); try reflexivity.
    + change (compareKind sc _ _ (SField 0) KEnum false (VInt x) (VInt y)) with (x =? y). now destruct (x =? y).
    + change (compareKind sc _ _ (SField 0) KDouble false (VInt x) (VInt y)) with (num_eqb KDouble x y). now destruct (num_eqb KDouble x y).
    + change (compareKind sc _ _ (SField 0) KString false (VStr x) (VStr y)) with (str_eqb x y). now destruct (str_eqb x y).
    + destruct x, y; reflexivity.
    + unfold compareKind, compareCall, compare_structs, call. cbn [classify]. rewrite Es, !denil_struct. cbn [md_foreign known_desc Struct_desc].
      destruct (ptr_eqb _ _ _); [reflexivity|]. apply (IH (SField 0 :: path)).
    + unfold compareKind, compareCall, compare_lists, call. cbn [classify]. rewrite El, !denil_list. cbn [md_foreign known_desc ListValue_desc].
      destruct (ptr_eqb _ _ _); [reflexivity|]. apply (IH (SField 0 :: path)).
  - intros a b. cbn [equal_msg struct_equal]. unfold equal_body, Struct_equal. destruct (ptr_eqb (o path) (Struct_val a) (Struct_val b)); [reflexivity|].
    assert (forall f f', (zlen (vmap f) =? zlen (vmap f')) && equal_map sc (fun st => o (st :: path)) (fun st => equal_msg sc o n (st :: path)) 0 (KMessage tv) (vmap f) (vmap f') =
      equal_field sc (fun st => o (st :: path)) (fun st => equal_msg sc o n (st :: path)) (mkF 1 0 (TMap KString (KMessage tv))) f f') as EF by reflexivity.
    assert (forall x, Struct_val (Struct_new x) = VMsg [match x with Some l => VMap (map (fun e => (VStr (fst e), Value_val (snd e))) l) | None => VNil end] [] []) as SV by (destruct x; reflexivity).
    assert (forall x, vmap match x with Some l => VMap (map (fun e => (VStr (fst e), Value_val (snd e))) l) | None => VNil end = map (fun e => (VStr (fst e), Value_val (snd e))) (elems x)) as SM by (destruct x; reflexivity).
    destruct a as [|f]; [destruct b as [|[]]; reflexivity|]. destruct b as [|f']; [destruct f; reflexivity|]. rewrite !SV, Es.
    cbn -[equal_field zlen elems]. rewrite !andb_true_r, <- EF, !SM, !zlen_map. destruct (zlen (elems f) =? zlen (elems f')); [|reflexivity]. cbn [andb negb].
    unfold equal_map. rewrite forallb_map. apply forallb_ext_in. intros e He. cbn [fst snd]. rewrite map_get_entry. destruct (get_entry (elems f') (fst e)); [|reflexivity].
    apply CV.
  - intros a b. cbn [equal_msg list_equal]. unfold equal_body, ListValue_equal. destruct (ptr_eqb (o path) (ListValue_val a) (ListValue_val b)); [reflexivity|].
    assert (forall f f', (zlen (vlist f) =? zlen (vlist f')) && equal_list sc (fun st => o (st :: path)) (fun st => equal_msg sc o n (st :: path)) 0 (KMessage tv) 0 (vlist f) (vlist f') =
      equal_field sc (fun st => o (st :: path)) (fun st => equal_msg sc o n (st :: path)) (mkF 1 0 (TField (LRepeated false) (KMessage tv))) f f') as EF by reflexivity.
    assert (forall x, ListValue_val (ListValue_new x) = VMsg [match x with Some l => VList (map Value_val l) | None => VNil end] [] []) as SV by (destruct x; reflexivity).
    assert (forall x, vlist match x with Some l => VList (map Value_val l) | None => VNil end = map Value_val (elems x)) as SM by (destruct x; reflexivity).
    destruct a as [|f]; [destruct b as [|[]]; reflexivity|]. destruct b as [|f']; [destruct f; reflexivity|]. rewrite !SV, El.
    cbn -[equal_field zlen elems]. rewrite !andb_true_r, <- EF, !SM, !zlen_map. destruct (zlen (elems f) =? zlen (elems f')); [|reflexivity]. cbn [andb negb].
    generalize 0%nat at 2 3. generalize (elems f'). induction (elems f) as [|x l IHl']; intros [|y l'] i; try reflexivity. cbn [map equal_list compare_elems]. now rewrite CV, IHl'.
Qed.

Lemma set_entry_val (l : list (list Z * KnownTypes.Value)) k v :
  map_set (map (fun e => (VStr (fst e), Value_val (snd e))) l) (VStr k) (Value_val v) = map (fun e => (VStr (fst e), Value_val (snd e))) (set_entry l k v).
Proof. induction l as [|[k' v'] l IH]; [reflexivity|]. cbn. unfold str_eqb. destruct (list_eq_dec Z.eq_dec k k'); [reflexivity|]. cbn. now rewrite IH. Qed.
Lemma slice_small d i j s : zslice d i j = Some s -> small d -> small s.
Proof.
  unfold zslice, small. destruct (_ && _); [|discriminate]. intros E. injection E as <-. unfold zlen. rewrite firstn_length, skipn_length. lia.
Qed.
Lemma Struct_some l : Struct_val (Struct_new (Some l)) = VMsg [VMap (map (fun e => (VStr (fst e), Value_val (snd e))) l)] [] [].
Proof. reflexivity. Qed.
Lemma ListValue_some l : ListValue_val (ListValue_new (Some l)) = VMsg [VList (map Value_val l)] [] [].
Proof. reflexivity. Qed.

Lemma struct_decodes n : forall data, small data ->
  (forall m, um_msg sc n tv data (Value_val m) = res_val Value_val (value_unmarshal n data m)) /\
  (forall m, um_msg sc n ts data (Struct_val m) = res_val Struct_val (struct_unmarshal n data m)) /\
  (forall m, um_msg sc n tl data (ListValue_val m) = res_val ListValue_val (list_unmarshal n data m)).
Proof.
  induction n as [|n IH]; intros data S; [repeat split; reflexivity|].
  repeat split; intros m; cbn [um_msg value_unmarshal struct_unmarshal list_unmarshal].
  - eapply agree_body; [exact Ev|reflexivity|]. clear m. intros m i. unfold Value_step. known_tag Ev. known_find; [..|known_skip Ev].
    + known_wire. destruct m as [|k]; known_num.
    + known_wire. destruct m as [|k]; known_num.
    + known_wire. known_len. destruct m as [|k]; reflexivity.
    + known_wire. unfold decodeNumber. cbn [classify varint_conv varint_post].
      match goal with |- context [decodeVarint ?w 0 ?d ?i] => destruct (decodeVarint w 0 d i) as [[zz j]|? []| |] end; destruct m as [|k]; try reflexivity.
      cbn. now destruct (zz =? 0).
    + known_wire. unfold message_item.
      match goal with |- context [decodeLen ?b ?d ?i] => destruct (decodeLen b d i) as [[j post]|? []| |]; cbn [lift rbind]; try reflexivity end.
      destruct (zslice data j post) as [buf|] eqn:Z; cbn [orpanic rbind]; [|reflexivity].
      destruct (IH buf (slice_small _ _ _ _ Z S)) as [_ [IHs _]].
      destruct m as [|k]; [reflexivity|]. unfold decodeMessage. rewrite Es. cbn -[um_msg Struct_val Kind_val].
      pose proof (IHs (Struct_new None)) as IHn. cbn [Struct_val] in IHn. change (new_msg (Struct_desc tv)) with (VMsg [VNil] [] []).
      destruct k as [|x|x|x|x|x|x]; cbn -[um_msg Struct_val]; try (rewrite IHn; destruct (struct_unmarshal n buf (Struct_new None)); reflexivity).
      rewrite IHs; destruct (struct_unmarshal n buf x); reflexivity.
    + known_wire. unfold message_item.
      match goal with |- context [decodeLen ?b ?d ?i] => destruct (decodeLen b d i) as [[j post]|? []| |]; cbn [lift rbind]; try reflexivity end.
      destruct (zslice data j post) as [buf|] eqn:Z; cbn [orpanic rbind]; [|reflexivity].
      destruct (IH buf (slice_small _ _ _ _ Z S)) as [_ [_ IHl]].
      destruct m as [|k]; [reflexivity|]. unfold decodeMessage. rewrite El. cbn -[um_msg ListValue_val Kind_val].
      pose proof (IHl (ListValue_new None)) as IHn. cbn [ListValue_val] in IHn. change (new_msg (ListValue_desc tv)) with (VMsg [VNil] [] []).
      destruct k as [|x|x|x|x|x|x]; cbn -[um_msg ListValue_val]; try (rewrite IHn; destruct (list_unmarshal n buf (ListValue_new None)); reflexivity).
      rewrite IHl; destruct (list_unmarshal n buf x); reflexivity.
  - eapply agree_body; [exact Es|reflexivity|]. clear m. intros m i. unfold Struct_step. known_tag Es. known_find; [|known_skip Es].
    assert (forall fuel j post key value,
      match map_loop sc (fun _ => um_msg sc n) (safe_env sc) fuel KString (KMessage tv) data j post (VStr key) (Value_val value) with
      | Ok (k, v, _) => Ok (k, v) | Err e u => Err e u | Panic => Panic | NoFuel => NoFuel end =
      match entry_loop (value_unmarshal n) fuel data j post key value with
      | Ok (k, v) => Ok (VStr k, Value_val v) | Err e u => Err e u | Panic => Panic | NoFuel => NoFuel end) as ML.
    { induction fuel as [|fuel IHf]; intros j post key value; [reflexivity|]. cbn [map_loop entry_loop]. destruct (j <? post); [|reflexivity].
      destruct (decodeVarint u64 0 data j) as [[w j']|e []| |]; cbn [rbind]; try reflexivity.
      destruct (s32 (Z.shiftr w 3) =? 1); [|destruct (s32 (Z.shiftr w 3) =? 2)].
      - unfold mapField at 1. cbn [classify]. known_len. apply IHf.
      - unfold mapField at 1. cbn [classify].
        match goal with |- context [decodeLen ?b ?d ?i] => destruct (decodeLen b d i) as [[i' p']|? []| |]; cbn [lift rbind]; try reflexivity end.
        destruct (zslice data i' p') as [buf|] eqn:Z; cbn [orpanic rbind]; [|reflexivity].
        destruct (IH buf (slice_small _ _ _ _ Z S)) as [IHv _]. specialize (IHv (Value_new Kind_nil)). unfold decodeMessage. rewrite Ev.
        change (new_msg (Value_desc ts tl)) with (Value_val (Value_new Kind_nil)). cbn [md_foreign known_desc Value_desc]. rewrite IHv.
        destruct (value_unmarshal n buf (Value_new Kind_nil)) as [x|e x| |]; cbn [res_val drop_state rbind]; try reflexivity. apply IHf.
      - destruct (zslice data j (zlen data)) as [rest|]; cbn [orpanic rbind]; [|reflexivity].
        destruct (Skip rest) as [sk|e []| |]; cbn [rbind]; try reflexivity. destruct (_ || _); [reflexivity|]. destruct (_ <? _); [reflexivity|]. apply IHf. }
    unfold um_field; cbn [f_ty plain].
    match goal with |- context [if negb (?c =? ?n) then _ else _] => destruct (c =? n) eqn:?; cbn [negb]; [|reflexivity] end.
    unfold map_item. 
    match goal with |- context [decodeLen ?b ?d ?i] => destruct (decodeLen b d i) as [[j post]|? []| |]; cbn [lift rbind]; try reflexivity end.
    destruct m as [|f]; [reflexivity|].
    specialize (ML (Datatypes.S (length data)) j post [] Value_nil). change (map_zero KString) with (VStr []). change (map_zero (KMessage tv)) with (Value_val Value_nil).
    assert (get_slot (Struct_val (Struct_new f)) 0 = Some match f with Some l => VMap (map (fun e => (VStr (fst e), Value_val (snd e))) l) | None => VNil end) as G by (destruct f; reflexivity).
    cbn [f_slot plain]. rewrite G. cbn [orpanic rbind].
    assert (vmap match f with Some l => VMap (map (fun e => (VStr (fst e), Value_val (snd e))) l) | None => VNil end = map (fun e => (VStr (fst e), Value_val (snd e))) (elems f)) as SM by (destruct f; reflexivity).
    rewrite SM.
    assert (forall x, set_slot (Struct_val (Struct_new f)) 0 x = Some (VMsg [x] [] [])) as SS by (destruct f; reflexivity). rewrite SS. cbn [orpanic rbind].
    destruct (map_loop _ _ _ _ _ _ _ _ _ _ _) as [[[k v] j']|e []| |], (entry_loop _ _ _ _ _ _ _) as [[k' v']|e' []| |]; try discriminate; try reflexivity; cbn [lift rbind step_val with_has].
    + injection ML as -> ->. cbn [set_slot orpanic rbind list_set]. rewrite set_entry_val. reflexivity.
    + injection ML as ->. reflexivity.
  - eapply agree_body; [exact El|reflexivity|]. clear m. intros m i. unfold ListValue_step. known_tag El. known_find; [|known_skip El].
    known_wire. unfold message_item.
    match goal with |- context [decodeLen ?b ?d ?i] => destruct (decodeLen b d i) as [[j post]|? []| |]; cbn [lift rbind]; try reflexivity end.
    destruct (zslice data j post) as [buf|] eqn:Z; cbn [orpanic rbind]; [|reflexivity].
    destruct (IH buf (slice_small _ _ _ _ Z S)) as [IHv _]. specialize (IHv (Value_new Kind_nil)). cbn [Value_val Kind_val] in IHv.
    unfold decodeMessage, list_grow. rewrite Ev. change (new_msg (Value_desc ts tl)) with (VMsg [VNil] [] []).
    destruct m as [|[l|]]; [reflexivity|..]; cbn -[um_msg md_of]; rewrite IHv; destruct (value_unmarshal n buf (Value_new Kind_nil)); cbn; try reflexivity; now rewrite map_app.
Qed.

Theorem Value_agrees : agrees sc tv Value_val Value_helpers.
Proof.
  assert (forall m, Value_SizeVT m = SizeVT sc tv (Value_val m)) as Hs.
  { intros m. symmetry. apply (struct_sizes (S (vdepth (Value_val m)))). lia. }
  assert (forall strict m buf, Value_MarshalToSizedBufferVT strict m buf = MarshalToSizedBufferVT sc strict tv (Value_val m) buf) as Hm.
  { intros strict m buf. symmetry. apply (struct_marshals strict (S (vdepth (Value_val m)))). lia. }
  split; cbn -[Value_val].
  - exact Hs.
  - exact Hm.
  - intros strict m. unfold marshal, MarshalVT. rewrite <- Hs.
    destruct m as [|k]; [reflexivity|..]; rewrite (Hm strict); reflexivity.
  - intros strict m arr. unfold marshal_to, MarshalToVT. rewrite <- Hs. destruct (zslice arr 0 _); cbn -[Value_val]; [|reflexivity]. now rewrite (Hm strict).
  - intros data m Sm. symmetry. exact (proj1 (struct_decodes (S (length data)) data Sm) m).
  - intros o a b. symmetry. apply (struct_equals o (S (S (Nat.max (vdepth (Value_val a)) (vdepth (Value_val b))))) []).
  - intros m. symmetry. unfold CloneVT, CloneVT_from. apply (struct_clones (S (vdepth (Value_val m))) []). lia.
Qed.
Theorem Struct_agrees : agrees sc ts Struct_val Struct_helpers.
Proof.
  assert (forall m, Struct_SizeVT m = SizeVT sc ts (Struct_val m)) as Hs.
  { intros m. symmetry. apply (struct_sizes (S (vdepth (Struct_val m)))). lia. }
  assert (forall strict m buf, Struct_MarshalToSizedBufferVT strict m buf = MarshalToSizedBufferVT sc strict ts (Struct_val m) buf) as Hm.
  { intros strict m buf. symmetry. apply (struct_marshals strict (S (vdepth (Struct_val m)))). lia. }
  split; cbn -[Struct_val].
  - exact Hs.
  - exact Hm.
  - intros strict m. unfold marshal, MarshalVT. rewrite <- Hs.
    destruct m as [|[]]; [reflexivity|..]; rewrite (Hm strict); reflexivity.
  - intros strict m arr. unfold marshal_to, MarshalToVT. rewrite <- Hs. destruct (zslice arr 0 _); cbn -[Struct_val]; [|reflexivity]. now rewrite (Hm strict).
  - intros data m Sm. symmetry. exact (proj1 (proj2 (struct_decodes (S (length data)) data Sm)) m).
  - intros o a b. symmetry. apply (struct_equals o (S (S (Nat.max (vdepth (Struct_val a)) (vdepth (Struct_val b))))) []).
  - intros m. symmetry. unfold CloneVT, CloneVT_from. apply (struct_clones (S (vdepth (Struct_val m))) []). lia.
Qed.
Theorem ListValue_agrees : agrees sc tl ListValue_val ListValue_helpers.
Proof.
  assert (forall m, ListValue_SizeVT m = SizeVT sc tl (ListValue_val m)) as Hs.
  { intros m. symmetry. apply (struct_sizes (S (vdepth (ListValue_val m)))). lia. }
  assert (forall strict m buf, ListValue_MarshalToSizedBufferVT strict m buf = MarshalToSizedBufferVT sc strict tl (ListValue_val m) buf) as Hm.
  { intros strict m buf. symmetry. apply (struct_marshals strict (S (vdepth (ListValue_val m)))). lia. }
  split; cbn -[ListValue_val].
  - exact Hs.
  - exact Hm.
  - intros strict m. unfold marshal, MarshalVT. rewrite <- Hs.
    destruct m as [|[]]; [reflexivity|..]; rewrite (Hm strict); reflexivity.
  - intros strict m arr. unfold marshal_to, MarshalToVT. rewrite <- Hs. destruct (zslice arr 0 _); cbn -[ListValue_val]; [|reflexivity]. now rewrite (Hm strict).
  - intros data m Sm. symmetry. exact (proj2 (proj2 (struct_decodes (S (length data)) data Sm)) m).
  - intros o a b. symmetry. apply (struct_equals o (S (S (Nat.max (vdepth (ListValue_val a)) (vdepth (ListValue_val b))))) []).
  - intros m. symmetry. unfold CloneVT, CloneVT_from. apply (struct_clones (S (vdepth (ListValue_val m))) []). lia.
Qed.
End Struct.
