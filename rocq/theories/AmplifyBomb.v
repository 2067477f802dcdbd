(** Inputs that make decoding a structpb.Struct take exponentially more memory than the input has
    bytes (C58). *)
From Coq Require Import ZArith List Bool Lia.
From Verif Require Import Base BaseFacts Schema Value Helpers Unmarshal WireSpec Typing RecordSpec MsgSpec
  VarintFacts SkipFacts OrderFacts NumFacts ViewFacts TargetFacts UmFacts LoopFacts DecodeSpec DecodeFacts
  KnownTypes KnownSpec PropsKnown AmplifySpec AmplifyFacts.
Import ListNotations.
Open Scope Z_scope.

(** [k] map entries.  The value of an entry reaches to the end of the input, far beyond the entry
    itself; decoding goes on behind the entry, so that the same bytes are decoded again. *)
Fixpoint bomb (k : nat) : list Z :=
  match k with
  | O => []
  | S k =>
      let rest := bomb k in
      let key := varint (Z.of_nat k) in
      let inner := [42] ++ varint (zlen rest) in
      let entry := [10] ++ (varint (zlen key) ++ key) ++ [18] ++ varint (zlen (inner ++ rest)) ++ inner in
      ([10] ++ varint (zlen entry) ++ entry) ++ rest
  end.
(** What it decodes to. *)
Fixpoint blast (k : nat) : list (list Z * KnownTypes.Value) :=
  match k with
  | O => []
  | S k => (varint (Z.of_nat k), Value_new (Value_StructValue (Struct_new (match k with O => None | _ => Some (blast k) end)))) :: blast k
  end.
Definition blast_struct (k : nat) : Struct := Struct_new (match k with O => None | _ => Some (blast k) end).

Lemma blast_count k : Struct_count (blast_struct k) = 2 ^ (Z.of_nat k + 1) - 1.
Proof.
  assert (forall k, Struct_count (blast_struct k) = 1 + fold_right (fun e n => Value_count (snd e) + n) 0 (blast k)) as E by (intros []; reflexivity).
  induction k as [|k IH]; [reflexivity|]. rewrite E. cbn [blast fold_right snd]. fold (blast_struct k).
  change (Value_count (Value_new (Value_StructValue (blast_struct k)))) with (1 + Struct_count (blast_struct k)).
  rewrite E in IH. rewrite E. replace (Z.of_nat (S k) + 1) with (Z.succ (Z.of_nat k + 1)) by lia. rewrite Z.pow_succ_r by lia. lia.
Qed.

Notation sc := known_sc.
Notation env := (safe_env sc).
Notation rc n := (fun _ : Z => um_msg sc n).

Lemma vlen z : 0 <= z < 18446744073709551616 -> is_len (varint z) z.
Proof. intros H. split; [apply varint_is; lia|]. split; [apply varint_len64; lia|]. rewrite varint_val by lia. apply Z.mod_small. lia. Qed.
Lemma vlen1 z : 0 <= z < 128 -> zlen (varint z) = 1.
Proof. intros H. now rewrite varint_small. Qed.

Lemma bomb_len k : 42 * Z.of_nat k < 9223372036854775800 -> zlen (bomb k) <= 42 * Z.of_nat k.
Proof.
  induction k as [|k IH]; [cbn; lia|]. intros H. specialize (IH ltac:(lia)). cbn [bomb]. cbv zeta. pose proof (zlen_nonneg (bomb k)).
  assert (zlen (varint (Z.of_nat k)) <= 10) as L1 by (apply varint_len64; lia). pose proof (zlen_nonneg (varint (Z.of_nat k))).
  assert (zlen (varint (zlen (varint (Z.of_nat k)))) = 1) as L2 by (apply vlen1; lia).
  assert (zlen (varint (zlen (bomb k))) <= 10) as L3 by (apply varint_len64; lia). pose proof (zlen_nonneg (varint (zlen (bomb k)))).
  set (inner := [42] ++ varint (zlen (bomb k))). assert (zlen inner <= 11) as L4 by (unfold inner; rewrite zlen_app; change (zlen [42]) with 1; lia).
  pose proof (zlen_nonneg inner).
  assert (zlen (varint (zlen (inner ++ bomb k))) <= 10) as L5 by (apply varint_len64; rewrite zlen_app; lia). pose proof (zlen_nonneg (varint (zlen (inner ++ bomb k)))).
  set (entry := [10] ++ (varint (zlen (varint (Z.of_nat k))) ++ varint (Z.of_nat k)) ++ [18] ++ varint (zlen (inner ++ bomb k)) ++ inner).
  assert (zlen entry <= 34) as L6 by (unfold entry; rewrite !zlen_app; change (zlen [10]) with 1; change (zlen [18]) with 1; rewrite zlen_app in *; lia).
  pose proof (zlen_nonneg entry). rewrite !zlen_app. rewrite (vlen1 (zlen entry)) by lia. change (zlen [10]) with 1. lia.
Qed.
Lemma bomb_bytes k : bytes_ok (bomb k) = true.
Proof.
  induction k as [|k IH]; [reflexivity|]. cbn [bomb]. cbv zeta. rewrite !bytes_ok_app, !IH, !varint_bytes by (apply zlen_nonneg || lia). reflexivity.
Qed.

Lemma Us : up_dec_ok sc. Proof. exact known_dec. Qed.

Lemma value_dec q x : (zlen q < 9223372036854775700) -> Pdec sc 13 q (VMsg [VNil] [] []) x ->
  Pdec sc 14 ([42] ++ varint (zlen q) ++ q) (VMsg [VNil] [] []) (VMsg [VOneof 5 x] [] []).
Proof.
  intros Lq P T B S n i L. unfold decodeMessage. rewrite known_local. destruct n as [|n]; [lia|]. cbn [um_msg]. unfold um_body.
  assert (Precord sc 14 5 ([42] ++ varint (zlen q) ++ q) (VMsg [VNil] [] []) (VMsg [VOneof 5 x] [] [])) as R.
  { pose proof (step_elem sc known_wf 14 (mkF 5 0 (TField LOneof (KMessage 13))) LOneof (KMessage 13) [42] (varint (zlen q) ++ q) x [VNil] [] []) as St.
    apply St; clear St.
    - cbn. tauto.
    - reflexivity.
    - repeat split; vm_compute; congruence.
    - right. right. right. exists 13%nat, (varint (zlen q)), q. split; [reflexivity|]. split; [reflexivity|]. split; [apply vlen; pose proof (zlen_nonneg q); lia|]. exact P.
    - intros _ [pk Hp]. discriminate. }
  destruct (R T n [] [] (has_init (md_of sc 14))) as [_ E]; rewrite ?app_nil_r; cbn [app]; auto; [cbn [app] in L; lia|].
  rewrite app_nil_r in E. change ([] ++ ?l) with l in E. set (data := [42] ++ varint (zlen q) ++ q) in *. change (42 :: varint (zlen q) ++ q) with data in *.
  assert (0 < zlen data) as Pz by (unfold data; rewrite zlen_app; change (zlen [42]) with 1; pose proof (zlen_nonneg (varint (zlen q) ++ q)); lia).
  change (zlen []) with 0 in E. cbn [Z.add] in E.
  cbn [um_loop]. replace (0 <? zlen data) with true by lia. rewrite E. cbn [rbind].
  destruct (length data) as [|ld] eqn:El; [unfold zlen in Pz; lia|]. cbn [um_loop]. rewrite Z.ltb_irrefl. cbn [rbind]. change (has_all (md_of sc 14) _) with true. cbn [negb].
  now rewrite Z.ltb_irrefl.
Qed.

Definition fields_f : fdesc := mkF 1 0 (TMap KString (KMessage 14)).

Lemma entry_step x key inner rest vv n p has :
  let q := inner ++ rest in
  let entry := [10] ++ (varint (zlen key) ++ key) ++ [18] ++ varint (zlen q) ++ inner in
  Pdec sc 14 q (VMsg [VNil] [] []) vv ->
  bytes_ok (p ++ ([10] ++ varint (zlen entry) ++ entry) ++ rest) = true -> small (p ++ ([10] ++ varint (zlen entry) ++ entry) ++ rest) ->
  (length (p ++ ([10%Z] ++ varint (zlen entry) ++ entry) ++ rest) <= n)%nat ->
  um_step sc (rc n) env 13 (p ++ ([10] ++ varint (zlen entry) ++ entry) ++ rest) (zlen p) (VMsg [x] [] []) has =
    Ok (VMsg [VMap (map_set (vmap x) (VStr key) vv)] [] [], zlen p + zlen ([10] ++ varint (zlen entry) ++ entry), has).
Proof.
  intros q entry. assert (exists e0, e0 = entry) as [e0 He] by eauto. rewrite <- He in *. subst entry. rename e0 into entry. assert (exists q0, q0 = q) as [q0 Hq] by eauto.
  rewrite <- Hq in *. subst q. rename q0 into q. intros P B S L. change has with (mark sc 13 (f_num fields_f) has) at 2.
  apply (step_field sc known_wf 13 fields_f [10] (varint (zlen entry) ++ entry) 2); [cbn; tauto|repeat split; vm_compute; congruence|lia|].
  set (t := p ++ [10]). assert (p ++ ([10] ++ varint (zlen entry) ++ entry) ++ rest = t ++ (varint (zlen entry) ++ entry) ++ rest) as Ea by (unfold t; now rewrite <- !app_assoc).
  rewrite Ea in *. clear Ea. unfold um_field. change (Z.land (u64 (vval [10])) 7 =? 2) with true. cbn [f_ty fields_f]. unfold map_item.
  assert (zlen entry < 9223372036854775800) as Le.
  { unfold small in S. rewrite (zlen_app t), (zlen_app _ rest), (zlen_app (varint (zlen entry))) in S. pose proof (zlen_nonneg t). pose proof (zlen_nonneg (varint (zlen entry))). pose proof (zlen_nonneg rest). lia. }
  destruct (split_ok t (varint (zlen entry)) entry rest B S) as (B1 & S1 & B2 & S2).
  rewrite <- (app_assoc (varint (zlen entry)) entry rest). rewrite (decodeLen_ok false t (varint (zlen entry)) entry rest (vlen (zlen entry) ltac:(pose proof (zlen_nonneg entry); lia)) B1 S1).
  cbn [lift rbind get_slot set_slot orpanic f_slot fields_f list_set slot nth vmap].
  set (t2 := t ++ varint (zlen entry)). replace (t ++ varint (zlen entry) ++ entry ++ rest) with (t2 ++ entry ++ rest) in * by (unfold t2; now rewrite <- app_assoc).
  rewrite <- (zlen_app t). fold t2.
  assert (bytes_ok (t2 ++ entry ++ rest) = true) as B3.
  { unfold t2. rewrite <- app_assoc. rewrite bytes_ok_app, B1, andb_true_r. rewrite bytes_ok_app in B. now apply andb_true_iff in B. }
  assert (length (t2 ++ entry ++ rest) <= n)%nat as L3 by (unfold t2; rewrite <- app_assoc; rewrite <- app_assoc in L; exact L).
  clear B1 B2 S2 B L S.
  (* the key *)
  set (kp := varint (zlen key) ++ key) in *. set (vp := varint (zlen q) ++ q).
  assert (t2 ++ entry ++ rest = t2 ++ [10] ++ kp ++ [18] ++ vp) as Ed.
  { rewrite He. unfold vp. rewrite Hq. rewrite <- !app_assoc. reflexivity. }
  assert (zlen entry = 1 + zlen kp + 1 + zlen (varint (zlen q)) + zlen inner) as Lz.
  { rewrite He. rewrite !zlen_app. change (zlen [10]) with 1. change (zlen [18]) with 1. lia. }
  pose proof (zlen_nonneg kp). pose proof (zlen_nonneg (varint (zlen q))). pose proof (zlen_nonneg inner).
  rewrite Ed in *. set (data := t2 ++ [10] ++ kp ++ [18] ++ vp) in *.
  assert (exists fuel, Datatypes.S (length data) = Datatypes.S (Datatypes.S (Datatypes.S fuel))) as [fuel Ef].
  { unfold data. rewrite !app_length. cbn [length]. exists (length t2 + length kp + length vp)%nat. lia. }
  rewrite Ef. change (map_zero KString) with (VStr []). change (map_zero (KMessage 14)) with VNil. cbn [map_loop]. replace (zlen t2 <? zlen t2 + zlen entry) with true by lia.
  assert (is_tag [10] 1 2) as T10 by (repeat split; vm_compute; congruence). assert (is_tag [18] 2 2) as T18 by (repeat split; vm_compute; congruence).
  unfold data at 1. rewrite (tag_read [10] 1 2 t2 _ T10). cbn [rbind]. change (s32 (Z.shiftr (u64 (vval [10])) 3) =? 1) with true.
  assert (data = (t2 ++ [10]) ++ kp ++ [18] ++ vp) as E1 by (unfold data; now rewrite <- !app_assoc).
  assert (zlen key < 9223372036854775800) as Lk by (unfold kp in *; rewrite zlen_app in *; pose proof (zlen_nonneg (varint (zlen key))); lia).
  destruct (mapField_dec sc known_wf KString VNil (VStr []) kp (VStr key) n (t2 ++ [10]) ([18] ++ vp)) as [Ek _]; auto.
  { right. left. exists (varint (zlen key)), key. split; [reflexivity|]. split; [reflexivity|]. split; [|reflexivity]. apply vlen. pose proof (zlen_nonneg key). lia. }
  { discriminate. }
  { now rewrite <- E1. } { now rewrite <- E1. } { now rewrite <- E1. }
  replace (zlen t2 + zlen [10]) with (zlen (t2 ++ [10])) by now rewrite zlen_app.
  rewrite <- E1 in Ek. rewrite Ek. cbn [rbind fst snd].
  (* the value *)
  replace (zlen (t2 ++ [10]) + zlen kp <? zlen t2 + zlen entry) with true by (rewrite zlen_app; change (zlen [10]) with 1; lia).
  rewrite <- zlen_app. set (t3 := (t2 ++ [10]) ++ kp).
  assert (data = t3 ++ [18] ++ vp) as E2 by (unfold data, t3; now rewrite <- !app_assoc).
  rewrite E2 at 1. rewrite (tag_read [18] 2 2 t3 _ T18). cbn [rbind]. change (s32 (Z.shiftr (u64 (vval [18])) 3) =? 1) with false.
  change (s32 (Z.shiftr (u64 (vval [18])) 3) =? 2) with true.
  assert (data = (t3 ++ [18]) ++ vp ++ []) as E3 by (rewrite app_nil_r, E2; now rewrite <- !app_assoc).
  assert (zlen q < 9223372036854775800) as Lq.
  { unfold small in S1. rewrite E3, !zlen_app in S1. unfold vp in S1. rewrite zlen_app in S1. pose proof (zlen_nonneg t3). change (zlen [18]) with 1 in S1. change (zlen []) with 0 in S1. lia. }
  destruct (mapField_dec sc known_wf (KMessage 14) (VMsg [VNil] [] []) VNil vp vv n (t3 ++ [18]) []) as [Ev _]; auto.
  { right. right. right. exists 14%nat, (varint (zlen q)), q. split; [reflexivity|]. split; [reflexivity|]. split; [apply vlen; pose proof (zlen_nonneg q); lia|exact P]. }
  { now intros m [= <-]. }
  { now rewrite <- E3. } { now rewrite <- E3. } { now rewrite <- E3. }
  replace (zlen t3 + zlen [18]) with (zlen (t3 ++ [18])) by now rewrite zlen_app.
  rewrite <- E3 in Ev. rewrite Ev. cbn [rbind fst snd].
  replace (zlen (t3 ++ [18]) + zlen vp <? zlen t2 + zlen entry) with false.
  2:{ symmetry. apply Z.ltb_ge. unfold t3, vp. rewrite !zlen_app. assert (zlen q = zlen inner + zlen rest) by (rewrite Hq; apply zlen_app). change (zlen [10]) with 1. change (zlen [18]) with 1. pose proof (zlen_nonneg rest). lia. }
  cbn [lift rbind orpanic set_slot list_set]. unfold t2. rewrite !zlen_app. do 2 f_equal. lia.
Qed.

(** All entries. *)
Lemma key_fresh k l v : (forall e, In e l -> exists j, fst e = VStr (varint (Z.of_nat j)) /\ (k < j)%nat) ->
  map_set l (VStr (varint (Z.of_nat k))) v = l ++ [(VStr (varint (Z.of_nat k)), v)].
Proof.
  induction l as [|[k' v'] l IH]; intros H; [reflexivity|]. cbn [map_set]. destruct (H (k', v') (or_introl eq_refl)) as (j & Ej & Lj). cbn [fst] in Ej. subst k'.
  cbn [key_eqb]. destruct (list_eq_dec Z.eq_dec (varint (Z.of_nat k)) (varint (Z.of_nat j))) as [E|_].
  - exfalso. apply (f_equal vval) in E. rewrite !varint_val in E by lia. lia.
  - cbn [app]. f_equal. apply IH. intros e He. apply H. now right.
Qed.

Definition entries (k : nat) : list (val * val) := map (fun e => (VStr (fst e), Value_val (snd e))) (blast k).
Definition grown (k : nat) (x : val) : val := match k with O => x | _ => VMap (vmap x ++ entries k) end.

Definition run (k : nat) : Prop := forall n p x has,
  (forall e, In e (vmap x) -> exists j, fst e = VStr (varint (Z.of_nat j)) /\ (k <= j)%nat) ->
  bytes_ok (p ++ bomb k) = true -> small (p ++ bomb k) -> (length (p ++ bomb k) <= n)%nat ->
  exists c, (c <= length (bomb k))%nat /\
  steps sc 13 (rc n) (p ++ bomb k) c (VMsg [x] [] [], zlen p, has) (VMsg [grown k x] [] [], zlen p + zlen (bomb k), has).

Lemma run_dec k : run k -> Pdec sc 13 (bomb k) (VMsg [VNil] [] []) (Struct_val (blast_struct k)).
Proof.
  intros R T B S n i L. unfold decodeMessage. rewrite known_local. destruct n as [|n]; [lia|]. cbn [um_msg]. unfold um_body.
  destruct (R n [] VNil (has_init (md_of sc 13))) as (c & Lc & St); auto.
  - intros e [].
  - cbn [app]. lia.
  - cbn [app] in St. change (zlen []) with 0 in St. cbn [Z.add] in St.
    rewrite (steps_loop _ _ _ _ _ _ _ _ _ _ _ _ St) by lia. destruct (Datatypes.S (length (bomb k)) - c)%nat as [|fuel] eqn:Ek; [lia|]. cbn [um_loop].
    rewrite Z.ltb_irrefl. cbn [rbind]. change (has_all (md_of sc 13) _) with true. cbn [negb]. rewrite Z.ltb_irrefl. destruct k; reflexivity.
Qed.

Lemma bomb_run k : 42 * Z.of_nat k < 9223372036854775600 -> run k.
Proof.
  induction k as [|k IH]; intros Hk n p x has Hx B S L.
  - exists 0%nat. split; [cbn; lia|]. change (zlen (bomb 0)) with 0. rewrite Z.add_0_r. apply steps_0.
  - specialize (IH ltac:(lia)). pose proof (run_dec k IH) as D. pose proof (bomb_len k ltac:(lia)) as Lb.
    set (vv := Value_val (Value_new (Value_StructValue (blast_struct k)))).
    assert (Pdec sc 14 (([42] ++ varint (zlen (bomb k))) ++ bomb k) (VMsg [VNil] [] []) vv) as Dv.
    { rewrite <- app_assoc. apply value_dec; [lia|exact D]. }
    cbn [bomb] in *. cbv zeta in *. set (key := varint (Z.of_nat k)) in *. set (inner := [42] ++ varint (zlen (bomb k))) in *.
    pose proof (entry_step x key inner (bomb k) vv n p has Dv B S L) as E. cbv zeta in E.
    set (entry := [10] ++ (varint (zlen key) ++ key) ++ [18] ++ varint (zlen (inner ++ bomb k)) ++ inner) in *. set (r := [10] ++ varint (zlen entry) ++ entry) in *.
    rewrite (key_fresh k) in E.
    2:{ intros e He. destruct (Hx e He) as (j & Ej & Lj). exists j. split; [assumption|lia]. }
    rewrite (app_assoc p r) in *.
    destruct (IH n (p ++ r) (VMap (vmap x ++ [(VStr key, vv)])) has) as (c & Lc & St); auto.
    { cbn [vmap]. intros e He. apply in_app_iff in He as [He|[<-|[]]]; [destruct (Hx e He) as (j & Ej & Lj); exists j; split; [assumption|lia]|]. exists k. split; [reflexivity|lia]. }
    exists (Datatypes.S c). split; [rewrite app_length; unfold r; cbn [app length]; lia|]. econstructor; [|exact E|].
    + rewrite !zlen_app. unfold r. rewrite !zlen_app. change (zlen [10]) with 1. pose proof (zlen_nonneg (varint (zlen entry))). pose proof (zlen_nonneg entry). pose proof (zlen_nonneg (bomb k)). lia.
    + rewrite zlen_app in St. rewrite zlen_app, Z.add_assoc.
      replace (grown (Datatypes.S k) x) with (grown k (VMap (vmap x ++ [(VStr key, vv)]))); [exact St|].
      destruct k as [|k]; [reflexivity|]. cbn [grown vmap]. rewrite <- app_assoc. reflexivity.
Qed.

Lemma bomb_dec k : 42 * Z.of_nat k < 9223372036854775600 ->
  UnmarshalVT sc 13 (bomb k) (VMsg [VNil] [] []) = Ok (Struct_val (blast_struct k)).
Proof.
  intros Hk. pose proof (run_dec k (bomb_run k Hk)) as D. unfold Pdec, decodeMessage in D. rewrite known_local in D.
  apply (D (target_new sc known_wf 13) (bomb_bytes k)); [|exact 0|lia]. pose proof (bomb_len k ltac:(lia)). unfold small. lia.
Qed.
