(** Properties C08-C17: SizeVT and the MarshalVT family.

    All theorems range over every well-formed schema (any number of messages and
    fields), every upstream implementation meeting [up_enc_ok], every well-typed
    message of any depth, both the strict and the non-strict variant, and every
    iteration order of the maps (a [VMap] lists its entries in the order the run
    at hand visits them). *)
From Coq Require Import ZArith List Bool Lia Permutation Sorted.
From Verif Require Import Base BaseFacts Schema Value Helpers Size Marshal WireSpec Typing MsgSpec
  SimFacts OrderFacts MarshalFacts MarshalTop ReorderFacts Ex.
Import ListNotations.
Open Scope Z_scope.

(** * Vocabulary *)

(** [ord] lists, for every message type, exactly the declared fields. *)
Definition all_fields (sc : schema) (ord : nat -> list fdesc) : Prop :=
  forall m, Permutation (ord m) (md_fields (md_of sc m)).
(** Fields in ascending order of number. *)
Definition ascending_order (ord : nat -> list fdesc) : Prop :=
  forall m, StronglySorted (fun f g => f_num f < f_num g) (ord m).
(** Fields outside of oneofs in ascending order of number, then oneof members. *)
Definition oneofs_last (ord : nat -> list fdesc) : Prop :=
  forall m, exists a b, ord m = a ++ b /\
    StronglySorted (fun f g => f_num f < f_num g) a /\
    (forall f, In f a -> is_oneof f = false) /\ (forall f, In f b -> is_oneof f = true).

Definition is_err {A} (r : res unit A) : Prop := exists e, r = Err e tt.

Lemma init_dec sc m v : Initialized sc m v = true \/ Initialized sc m v = false.
Proof. destruct (Initialized sc m v); auto. Qed.

(** * C08 *)
Theorem C08_size_exact : forall sc strict m v bs,
  wf_schema sc = true -> up_enc_ok sc -> wt_ptrmsg sc m v ->
  MarshalVT sc strict m v = Ok bs ->
  SizeVT sc m v = match bs with Some b => zlen b | None => 0 end.
Proof.
  intros sc strict m v bs W U H E. destruct v as [| | | | | | | | s u h| |].
  { injection E as <-. reflexivity. }
  1-7,9,10: destruct H as [H|H]; [discriminate|inversion H].
  pose proof (top_marshal sc W U strict m _ H ltac:(discriminate)) as T.
  rewrite E in T. rewrite (top_size sc W U strict m _ H).
  destruct (Initialized _ _ _); [now injection T as ->|destruct T; discriminate].
Qed.
Print Assumptions C08_size_exact.
Example C08_nonvacuous :
  wf_schema ex_sc = true /\ up_enc_ok ex_sc /\ wt_msg ex_sc 0 ex_v /\
  SizeVT ex_sc 0 ex_v = 96 /\
  match MarshalVT ex_sc false 0 ex_v with Ok (Some b) => zlen b | _ => 0 end = 96.
Proof.
  split; [reflexivity|]. split; [apply ex_up_ok|]. split; [apply ex_wt|]. split; vm_compute; reflexivity.
Qed.

(** * C09 *)
Theorem C09_sized_buffer : forall sc strict m v buf,
  wf_schema sc = true -> up_enc_ok sc -> wt_ptrmsg sc m v -> SizeVT sc m v <= zlen buf ->
  exists enc,
    zlen enc = SizeVT sc m v /\
    (v <> VNil -> ~ MissingRequired sc m v -> MarshalVT sc strict m v = Ok (Some enc)) /\
    (MissingRequired sc m v -> is_err (MarshalToSizedBufferVT sc strict m v buf)) /\
    (~ MissingRequired sc m v ->
     MarshalToSizedBufferVT sc strict m v buf
     = Ok (firstn (Z.to_nat (zlen buf - SizeVT sc m v)) buf ++ enc, SizeVT sc m v)).
Proof.
  intros sc strict m v buf W U H L.
  pose proof (top_size sc W U strict m v H) as TS.
  exists (Encoding sc (order sc strict) m v). split; [now rewrite TS|].
  pose proof (zlen_nonneg (Encoding sc (order sc strict) m v)) as P.
  destruct (split_at buf (zlen buf - SizeVT sc m v)) as (p & q & -> & Lp); [lia|].
  rewrite zlen_app in *. assert (zlen q = SizeVT sc m v) as Lq by lia.
  pose proof (top_sized sc W U strict m v H p q Lq) as T.
  replace (firstn _ (p ++ q)) with p.
  2: { rewrite <- Lp. unfold zlen. rewrite Nat2Z.id, firstn_app, Nat.sub_diag, firstn_all.
       symmetry. apply app_nil_r. }
  pose proof (Initialized_missing sc m v W H) as I.
  repeat split.
  - intros N M. pose proof (top_marshal sc W U strict m v H N) as TM.
    destruct (Initialized sc m v); [exact TM|]. destruct M. now apply I.
  - intros M. apply I in M. rewrite M in T. exact T.
  - intros M. destruct (Initialized sc m v); [exact T|]. destruct M. now apply I.
Qed.
Print Assumptions C09_sized_buffer.
Example C09_nonvacuous :
  match MarshalToSizedBufferVT ex_sc false 0 ex_v (repeat 9 100) with
  | Ok (b, n) => (firstn 4 b, zlen b, n) | _ => ([], 0, 0) end = ([9; 9; 9; 9], 100, 96).
Proof. reflexivity. Qed.

(** * C10 *)
Theorem C10_short_buffer : forall sc strict m v buf,
  wf_schema sc = true -> up_enc_ok sc -> wt_ptrmsg sc m v -> zlen buf < SizeVT sc m v ->
  MarshalToSizedBufferVT sc strict m v buf = Panic \/ is_err (MarshalToSizedBufferVT sc strict m v buf).
Proof. intros. now apply top_short. Qed.
Print Assumptions C10_short_buffer.
Example C10_nonvacuous : MarshalToSizedBufferVT ex_sc true 0 ex_v (repeat 9 95) = Panic.
Proof. reflexivity. Qed.

(** * C11 *)
Theorem C11_marshal_to : forall sc strict m v arr,
  wf_schema sc = true -> up_enc_ok sc -> wt_ptrmsg sc m v ->
  (zlen arr < SizeVT sc m v -> MarshalToVT sc strict m v arr = Panic) /\
  (SizeVT sc m v <= zlen arr ->
    exists enc,
      zlen enc = SizeVT sc m v /\
      (v <> VNil -> ~ MissingRequired sc m v -> MarshalVT sc strict m v = Ok (Some enc)) /\
      (MissingRequired sc m v -> is_err (MarshalToVT sc strict m v arr)) /\
      (~ MissingRequired sc m v ->
       MarshalToVT sc strict m v arr
       = Ok (enc ++ skipn (Z.to_nat (SizeVT sc m v)) arr, SizeVT sc m v))).
Proof.
  intros sc strict m v arr W U H. destruct (top_to sc W U strict m v H arr) as [T1 T2].
  split; [exact T2|]. intros L. specialize (T1 L).
  exists (Encoding sc (order sc strict) m v). split; [now rewrite (top_size sc W U strict m v H)|].
  pose proof (Initialized_missing sc m v W H) as I. repeat split.
  - intros N M. pose proof (top_marshal sc W U strict m v H N) as TM.
    destruct (Initialized sc m v); [exact TM|]. destruct M. now apply I.
  - intros M. apply I in M. rewrite M in T1. exact T1.
  - intros M. destruct (Initialized sc m v); [exact T1|]. destruct M. now apply I.
Qed.
Print Assumptions C11_marshal_to.
Example C11_nonvacuous :
  match MarshalToVT ex_sc false 0 ex_v (repeat 9 100) with
  | Ok (b, n) => (skipn 96 b, firstn 3 b, n) | _ => ([], [], 0) end = ([9; 9; 9; 9], [8; 255; 255], 96).
Proof. reflexivity. Qed.

(** * C12: the bytes are the wire encoding defined in WireSpec.v. *)
Theorem C12_wire_encoding : forall sc, wf_schema sc = true -> up_enc_ok sc ->
  exists ord, all_fields sc ord /\ oneofs_last ord /\
    forall m v, wt_msg sc m v -> ~ MissingRequired sc m v ->
      MarshalVT sc false m v = Ok (Some (Encoding sc ord m v)).
Proof.
  intros sc W U. exists (order sc false). split; [|split].
  - intros m. apply order_perm.
  - intros m. now apply fast_sorted.
  - intros m v H M. assert (wt_ptrmsg sc m v) as H' by now right.
    pose proof (top_marshal sc W U false m v H') as T.
    pose proof (Initialized_missing sc m v W H') as I.
    destruct (Initialized sc m v); [apply T; intros ->; inversion H|]. destruct M. now apply I.
Qed.
Print Assumptions C12_wire_encoding.
(** [int32 = -1] takes ten bytes, the nested nil message is an empty record, the
    oneof (field 7) comes after field 20, the unknown field 100 last. *)
Example C12_nonvacuous :
  ~ MissingRequired ex_sc 0 ex_v /\
  MarshalVT ex_sc false 0 ex_v = Ok (Some
    [8; 255; 255; 255; 255; 255; 255; 255; 255; 255; 1;
     18; 2; 104; 105; 26; 3; 1; 216; 4;
     34; 11; 8; 251; 255; 255; 255; 255; 255; 255; 255; 255; 1; 34; 0;
     42; 17; 10; 2; 98; 99; 18; 11; 8; 249; 255; 255; 255; 255; 255; 255; 255; 255; 1; 42; 7; 10; 1; 97; 18; 2; 8; 1; 
     65; 0; 0; 0; 0; 0; 0; 240; 63; 74; 2; 0; 255; 130; 1; 0; 130; 1; 1; 120;
     162; 1; 2; 8; 77; 58; 3; 8; 150; 1; 160; 6; 1]).
Proof.
  split; [|vm_compute; reflexivity]. rewrite <- Initialized_missing.
  - discriminate.
  - reflexivity.
  - right. apply ex_wt.
Qed.

(** * C13 *)
Theorem C13_required : forall sc strict m v,
  wf_schema sc = true -> up_enc_ok sc -> wt_msg sc m v ->
  (MissingRequired sc m v -> is_err (MarshalVT sc strict m v)) /\
  (~ MissingRequired sc m v -> exists bs, MarshalVT sc strict m v = Ok (Some bs)) /\
  (MissingRequired sc m v \/ ~ MissingRequired sc m v).
Proof.
  intros sc strict m v W U H. assert (wt_ptrmsg sc m v) as H' by now right.
  assert (v <> VNil) as N by (intros ->; inversion H).
  pose proof (top_marshal sc W U strict m v H' N) as T.
  pose proof (Initialized_missing sc m v W H') as I. repeat split.
  - intros M. apply I in M. rewrite M in T. exact T.
  - intros M. destruct (Initialized sc m v); [eexists; exact T|]. destruct M. now apply I.
  - rewrite <- I. destruct (Initialized sc m v); [right; discriminate|now left].
Qed.
Print Assumptions C13_required.
Example C13_nonvacuous :
  MissingRequired ex_sc 0 ex_bad /\ MarshalVT ex_sc false 0 ex_bad = Err ERequired tt.
Proof.
  split; [|reflexivity]. apply Initialized_missing; [reflexivity|right; apply ex_bad_wt|reflexivity].
Qed.

(** * C14 *)
Theorem C14_strict_order : forall sc, wf_schema sc = true -> up_enc_ok sc ->
  exists ord, all_fields sc ord /\ ascending_order ord /\
    forall m v, wt_msg sc m v -> ~ MissingRequired sc m v ->
      MarshalVT sc true m v = Ok (Some (Encoding sc ord m v)).
Proof.
  intros sc W U. exists (order sc true). split; [|split].
  - intros m. apply order_perm.
  - intros m. now apply strict_sorted.
  - intros m v H M. assert (wt_ptrmsg sc m v) as H' by now right.
    pose proof (top_marshal sc W U true m v H') as T.
    pose proof (Initialized_missing sc m v W H') as I.
    destruct (Initialized sc m v); [apply T; intros ->; inversion H|]. destruct M. now apply I.
Qed.
Print Assumptions C14_strict_order.
Example C14_nonvacuous :
  match MarshalVT ex_sc true 0 ex_v with Ok (Some b) => skipn 63 b | _ => [] end =
    [58; 3; 8; 150; 1; 65; 0; 0; 0; 0; 0; 0; 240; 63; 74; 2; 0; 255; 130; 1; 0; 130; 1; 1; 120;
     162; 1; 2; 8; 77; 160; 6; 1].
Proof. reflexivity. Qed.

(** * C15: same outcome, same length, the same fields up to order at every level
    ([C15_same_message] in PropsRoundTrip.v: both decode to the same message). *)
Theorem C15_strict_agrees : forall sc, wf_schema sc = true -> up_enc_ok sc ->
  exists ord ord', all_fields sc ord /\ all_fields sc ord' /\
    forall m v, wt_msg sc m v ->
      (is_err (MarshalVT sc true m v) <-> is_err (MarshalVT sc false m v)) /\
      (~ MissingRequired sc m v ->
        MarshalVT sc true m v = Ok (Some (Encoding sc ord m v)) /\
        MarshalVT sc false m v = Ok (Some (Encoding sc ord' m v)) /\
        zlen (Encoding sc ord m v) = zlen (Encoding sc ord' m v)).
Proof.
  intros sc W U. exists (order sc true), (order sc false).
  split; [intros m; apply order_perm|]. split; [intros m; apply order_perm|]. intros m v H.
  assert (wt_ptrmsg sc m v) as H' by now right.
  assert (v <> VNil) as N by (intros ->; inversion H).
  pose proof (top_marshal sc W U true m v H' N) as T1.
  pose proof (top_marshal sc W U false m v H' N) as T2.
  pose proof (Initialized_missing sc m v W H') as I. split.
  - destruct (Initialized sc m v); cbn [outcome] in *.
    + rewrite T1, T2. split; intros [e E]; discriminate.
    + split; intros _; assumption.
  - intros M. destruct (Initialized sc m v); [|destruct M; now apply I].
    repeat split; try assumption. now rewrite <- !(top_size sc W U _ m v H').
Qed.
Print Assumptions C15_strict_agrees.

(** * C16: map order affects neither sizes nor success
    ([C16_same_message] in PropsRoundTrip.v: nor the decoded message). *)
Theorem C16_map_order : forall sc strict m v v',
  wf_schema sc = true -> up_enc_ok sc -> up_reorder_ok sc ->
  wt_msg sc m v -> wt_msg sc m v' -> reorder v v' ->
  SizeVT sc m v = SizeVT sc m v' /\
  (is_err (MarshalVT sc strict m v) <-> is_err (MarshalVT sc strict m v')) /\
  forall bs, MarshalVT sc strict m v = Ok (Some bs) ->
    exists bs', MarshalVT sc strict m v' = Ok (Some bs') /\ zlen bs = zlen bs'.
Proof.
  intros sc strict m v v' W U R H H' RO.
  assert (wt_ptrmsg sc m v) as P by now right. assert (wt_ptrmsg sc m v') as P' by now right.
  pose proof (reorder_Encoding sc (order sc strict) m v v' R RO) as E.
  pose proof (reorder_Initialized sc m v v' R RO) as I.
  pose proof (top_marshal sc W U strict m v P) as T.
  pose proof (top_marshal sc W U strict m v' P') as T'.
  rewrite <- I in T'.
  assert (v <> VNil) as N by (intros ->; inversion H). assert (v' <> VNil) as N' by (intros ->; inversion H').
  specialize (T N). specialize (T' N'). split; [|split].
  - now rewrite !(top_size sc W U strict m).
  - destruct (Initialized sc m v); cbn [outcome] in *.
    + rewrite T, T'. split; intros [e F]; discriminate.
    + split; intros _; assumption.
  - intros bs B. rewrite B in T. destruct (Initialized sc m v); cbn [outcome] in *.
    + injection T as ->. eexists. split; [exact T'|exact E].
    + destruct T; discriminate.
Qed.
Print Assumptions C16_map_order.
Definition ex_v' : val := VMsg
  [ VInt (-1); VPtr (VStr [104; 105]); VList [VInt (-1); VInt 300];
    VList [ex_inner; VNil]; VMap [(VStr [98; 99], ex_req (-7)); (VStr [97], ex_req 1)];
    VOneof 7 (ex_req 150); VInt 4607182418800017408; VBytes [0; 255];
    VMsg [VInt 77] [] []; VList [VStr []; VStr [120]] ] [160; 6; 1] [].
Lemma base_reorder : up_reorder_ok base_sc.
Proof.
  split; intros m v v' F; [|].
  - destruct m as [|[|[|m]]]; try discriminate F. unfold md_of in F. cbn in F. destruct m; discriminate.
  - destruct m as [|[|[|m]]]; try discriminate F. unfold md_of in F. cbn in F. destruct m; discriminate.
Qed.
Example C16_nonvacuous :
  wt_msg ex_sc 0 ex_v' /\ reorder ex_v ex_v' /\ ex_v <> ex_v' /\ up_reorder_ok ex_sc.
Proof.
  split; [now apply (check_ok ex_sc 5)|]. split; [|split; [discriminate|]].
  - constructor. repeat (apply Forall2_cons; [|]); try apply ro_refl; [|apply Forall2_nil].
    eapply ro_map; [apply perm_swap|]. repeat constructor.
  - split; intros m v v' F RO; cbn.
    + apply reorder_Encoding; [apply base_reorder|assumption].
    + apply reorder_Initialized; [apply base_reorder|assumption].
Qed.

(** * C17 *)
Theorem C17_nil_receiver : forall sc strict m buf,
  SizeVT sc m VNil = 0 /\ MarshalVT sc strict m VNil = Ok None /\
  MarshalToSizedBufferVT sc strict m VNil buf = Ok (buf, 0) /\
  MarshalToVT sc strict m VNil buf = Ok (buf, 0).
Proof.
  intros sc strict m buf. repeat split; try reflexivity.
  unfold MarshalToVT. change (SizeVT sc m VNil) with 0. cbv zeta.
  unfold zslice. rewrite !Z.leb_refl. cbn [andb].
  pose proof (zlen_nonneg buf). replace (0 <=? zlen buf) with true by lia. reflexivity.
Qed.
Print Assumptions C17_nil_receiver.

(** Nil sub-messages in lists, oneofs and map values (proved for the wire
    encoding, which C12 and C14 identify with the bytes written): a record with an
    empty payload. *)
Theorem C17_nil_sub : forall sc ord n num m,
  up_enc_ok sc ->
  enc_tagged sc (enc_msg sc ord n) num (KMessage m) VNil = tag num 2 ++ [0] /\
  (forall kk k, enc_entry sc (enc_msg sc ord n) num kk (KMessage m) (k, VNil)
    = tag num 2 ++ ld (tag 1 (wire_of kk) ++ enc_value sc (enc_msg sc ord n) kk k ++ tag 2 2 ++ [0])).
Proof.
  intros sc ord n num m U.
  assert (enc_sub sc (enc_msg sc ord n) m VNil = []) as E.
  { unfold enc_sub. destruct (md_foreign _) eqn:F; [now apply up_nil_ok|]. destruct n; reflexivity. }
  split; [|intros kk k].
  - unfold enc_tagged, enc_value. rewrite E. reflexivity.
  - unfold enc_entry. cbn [fst snd]. replace (enc_value sc (enc_msg sc ord n) (KMessage m) VNil) with [0]; [reflexivity|].
    unfold enc_value. rewrite E. reflexivity.
Qed.
Print Assumptions C17_nil_sub.
Example C17_nonvacuous :
  MarshalVT ex_sc false 0
    (VMsg [VInt 0; VNil; VNil; VList [VNil]; VNil; VNil; VInt 0; VNil; VNil; VNil] [] [])
  = Ok (Some [34; 0]).
Proof. reflexivity. Qed.
