(** Property C58: how much memory decoding may take for the bytes it is given. *)
From Coq Require Import ZArith List Bool Lia.
From Verif Require Import Base BaseFacts Schema Value Helpers Unmarshal Unsafe WireSpec Typing RecordSpec MsgSpec DecodeSpec
  PropsUnmarshal KnownTypes KnownSpec KnownStruct PropsKnown AmplifySpec AmplifyFacts AmplifyBomb.
Import ListNotations.
Open Scope Z_scope.

(** Schemas whose maps hold only numbers: whatever the input, and whether or not the call
    succeeds, the message grows by at most a constant number of cells per byte. *)
Theorem C58_linear_partial : forall sc K m data v,
  rate sc K -> number_maps sc -> small data ->
  forall v', accepts sc m data v v' \/ (exists e, UnmarshalVT sc m data v = Err e v') -> cells v' <= cells v + K * zlen data.
Proof.
  intros sc K m data v Rt Nm S v' [A|[e A]]; pose proof (um_under sc K Rt Nm (Datatypes.S (length data)) m data v S) as U;
    unfold accepts, UnmarshalVT in A; rewrite A in U; exact U.
Qed.
Print Assumptions C58_linear_partial.

(** The same for UnmarshalVTUnsafe with empty pools. *)
Theorem C58_unsafe_partial : forall sc K m data v,
  rate sc K -> number_maps sc -> small data ->
  forall v', (UnmarshalVTUnsafe sc (fun _ m => new_msg (md_of sc m)) m data v = Ok v' \/
              exists e, UnmarshalVTUnsafe sc (fun _ m => new_msg (md_of sc m)) m data v = Err e v') -> cells v' <= cells v + K * zlen data.
Proof.
  intros sc K m data v Rt Nm S v' A.
  assert (forall (p : list Z) m, cells (new_msg (md_of sc m)) <= 1 + Z.of_nat (md_nslots (md_of sc m))) as Al by (intros; rewrite cells_new; lia).
  pose proof (unsafe_under sc K (fun _ m => new_msg (md_of sc m)) Rt Nm Al (Datatypes.S (length data)) [] 0 m data v S) as U.
  unfold UnmarshalVTUnsafe in A. destruct A as [A|[e A]]; rewrite A in U; exact U.
Qed.
Print Assumptions C58_unsafe_partial.

(** Every schema: input that a conforming encoder can have written. *)
Theorem C58_conforming : forall sc K m bs v v',
  wf_schema sc = true -> up_dec_ok sc -> rate sc K -> bytes_ok bs = true -> small bs -> target sc m v -> md_foreign (md_of sc m) = false ->
  decodes sc m bs v v' -> accepts sc m bs v v' /\ cells v' <= cells v + K * (1 + zlen bs).
Proof.
  intros sc K m bs v v' W U Rt B S T F D. split; [now apply C20_decodes|].
  destruct (proj1 (proj2 (conform_cost sc K Rt)) m bs v v' D) as [[_ H]|H]; pose proof (rate_pos sc K Rt); pose proof (cells_pos v); [|lia].
  rewrite Z.mul_add_distr_l. lia.
Qed.
Print Assumptions C58_conforming.

(** Different structs are different values. *)
Lemma val_inj n :
  (forall v w, (vdepth (Value_val v) < n)%nat -> Value_val v = Value_val w -> v = w) /\
  (forall s t, (vdepth (Struct_val s) < n)%nat -> Struct_val s = Struct_val t -> s = t) /\
  (forall l r, (vdepth (ListValue_val l) < n)%nat -> ListValue_val l = ListValue_val r -> l = r).
Proof.
  induction n as [|n [IHv [IHs IHl]]]; [repeat split; intros; lia|]. repeat split.
  - intros [|k] [|j] D E; try discriminate; [reflexivity|]. cbn [Value_val] in E. injection E as E.
    destruct k as [|z|z|t|b|t|l], j as [|z'|z'|t'|b'|t'|l']; cbn [Kind_val] in E; try discriminate; try reflexivity; injection E as E; subst; try reflexivity.
    + destruct b, b'; try discriminate; reflexivity.
    + rewrite (IHs t t'); [reflexivity| |assumption]. cbn in D. lia.
    + rewrite (IHl l l'); [reflexivity| |assumption]. cbn in D. lia.
  - intros [|[l|]] [|[r|]] D E; try discriminate; try reflexivity. cbn [Struct_val] in E. injection E as E. do 2 f_equal.
    assert (forall e, In e l -> (vdepth (Value_val (snd e)) < n)%nat) as B by (intros e He; pose proof (depth_struct l e He); lia).
    clear D. revert r E. induction l as [|[k v] l IH]; intros [|[k' v'] r] E; try discriminate; [reflexivity|].
    cbn [map fst snd] in E. injection E as Ek Ev El. subst k'. rewrite (IHv v v' (B (k, v) (or_introl eq_refl)) Ev). f_equal. apply IH; [|assumption]. intros e He. apply B. now right.
  - intros [|[l|]] [|[r|]] D E; try discriminate; try reflexivity. cbn [ListValue_val] in E. injection E as E. do 2 f_equal.
    assert (forall e, In e l -> (vdepth (Value_val e) < n)%nat) as B by (intros e He; pose proof (depth_list l e He); lia).
    clear D. revert r E. induction l as [|v l IH]; intros [|v' r] E; try discriminate; [reflexivity|].
    cbn [map] in E. injection E as Ev El. rewrite (IHv v v' (B v (or_introl eq_refl)) Ev). f_equal. apply IH; [|assumption]. intros e He. apply B. now right.
Qed.

(** The full claim, for every schema and every input, is false: the value of a map entry may reach
    beyond its entry, and the bytes there are decoded again.  With the helpers shipped for
    structpb.Struct, 42 bytes more double the number of messages. *)
Theorem C58_exponential_refuted : forall k, 42 * Z.of_nat k < 9223372036854775600 ->
  exists data s, octets data /\ zlen data <= 42 * Z.of_nat k /\
    UnmarshalVT_ Struct_helpers data (Struct_new None) = Ok s /\ Struct_count s = 2 ^ (Z.of_nat k + 1) - 1.
Proof.
  intros k H. exists (bomb k), (blast_struct k). pose proof (bomb_len k ltac:(lia)) as L.
  split; [|split; [exact L|split; [|apply blast_count]]].
  - pose proof (bomb_bytes k) as B. unfold bytes_ok in B. rewrite forallb_forall in B. apply Forall_forall. intros b Hb. specialize (B b Hb). unfold is_byte in B. lia.
  - pose proof (agree_unmarshal known_sc 13 Struct_val Struct_helpers (Struct_agrees known_sc 13 14 15 eq_refl eq_refl eq_refl) (bomb k) (Struct_new None) ltac:(unfold small; lia)) as A.
    change (Struct_val (Struct_new None)) with (VMsg [VNil] [] []) in A. rewrite (bomb_dec k H) in A.
    destruct (UnmarshalVT_ Struct_helpers (bomb k) (Struct_new None)) as [s|e s| |]; try discriminate. cbn [res_val] in A. injection A as A. f_equal.
    apply (proj1 (proj2 (val_inj (Datatypes.S (vdepth (Struct_val s)))))); [lia|exact A].
Qed.
Print Assumptions C58_exponential_refuted.

(** * Examples *)
(** message M { repeated M kids = 1; map<int32, bool> flags = 2; oneof x { string name = 3; M sub = 4; } repeated sint32 nums = 5; } *)
Definition amp_sc : schema :=
  mkS [mkM [mkF 1 0 (TField (LRepeated false) (KMessage 0)); mkF 2 1 (TMap KInt32 KBool); mkF 3 2 (TField LOneof KString);
            mkF 4 2 (TField LOneof (KMessage 0)); mkF 5 3 (TField (LRepeated true) KSint32)] 4 true [] false false]
    (mkUp (fun _ _ => []) (fun _ _ => true) (fun _ _ => 0) (fun _ _ => None) (fun _ _ _ => true) (fun _ v => v) (fun _ _ => None)).
Lemma amp_rate : rate amp_sc 6.
Proof. split; try discriminate. intros [|[|m]]; cbn; lia. Qed.
Lemma amp_maps : number_maps amp_sc.
Proof. intros [|[|m]] f kk vk Hf Ty; cbn in Hf; repeat (destruct Hf as [<-|Hf]; [try discriminate Ty; injection Ty as <- <-; split; reflexivity|]); destruct Hf. Qed.
(** Empty sub-messages are the worst case: two bytes make a message of five cells.  The last call
    fails in the middle of a map entry. *)
Example C58_ex :
  wf_schema amp_sc = true /\
  match UnmarshalVT amp_sc 0 [10; 0; 10; 0; 34; 2; 10; 0; 42; 3; 1; 2; 3; 18; 4; 8; 7; 16; 1; 50; 1; 9] (new_msg (md_of amp_sc 0)) with
  | Ok v => cells v = 33 /\ cells v <= cells (new_msg (md_of amp_sc 0)) + 6 * 22
  | _ => False
  end /\
  match UnmarshalVT amp_sc 0 [10; 0; 18; 4; 8; 7; 16] (new_msg (md_of amp_sc 0)) with Err _ v => cells v = 10 | _ => False end.
Proof. vm_compute. split; [reflexivity|]. split; [split; [reflexivity|discriminate]|reflexivity]. Qed.
(** {"a": "bc"} as a Struct. *)
Example C58_conforming_ex : rate known_sc 4 /\
  exists v', decodes known_sc 13 [10; 9; 10; 1; 97; 18; 4; 26; 2; 98; 99] (new_msg (md_of known_sc 13)) v' /\ cells v' = 9.
Proof.
  split; [split; try discriminate; intros m; do 16 (destruct m as [|m]; [vm_compute; discriminate|]); unfold md_of; cbn; destruct m; cbn; lia|].
  eexists. split.
  - eapply dec_own; [reflexivity| |intros f [<-|[]] R; discriminate R].
    eapply (df_cons known_sc 13 1 [10; 9; 10; 1; 97; 18; 4; 26; 2; 98; 99] []); [|apply df_nil].
    eapply (dr_map known_sc 13 (mkF 1 0 (TMap KString (KMessage 14))) KString (KMessage 14) [10] [9] [10; 1; 97; 18; 4; 26; 2; 98; 99]); [now left|reflexivity|tagged|tagged| |apply mp_new; intros []].
    apply (de_key known_sc KString (KMessage 14) [10] [1; 97] [18; 4; 26; 2; 98; 99]); [tagged|apply (dv_str known_sc VNil [1] [97]); tagged|].
    apply (de_value known_sc KString (KMessage 14) [18] [4; 26; 2; 98; 99] []); [tagged| |apply de_nil].
    apply (dv_msg known_sc 14 _ [4] [26; 2; 98; 99]); [tagged|].
    eapply dec_own; [reflexivity| |intros f Hf R; cbn in Hf; intuition subst; discriminate R].
    eapply (df_cons known_sc 14 3 [26; 2; 98; 99] []); [|apply df_nil].
    apply (dr_oneof known_sc 14 (mkF 3 0 (TField LOneof KString)) KString [26] [2; 98; 99] (VStr [98; 99])); [cbn; tauto|reflexivity|tagged|].
    apply (dv_str known_sc _ [2] [98; 99]). tagged.
  - vm_compute. reflexivity.
Qed.
(** 27 bytes: three entries, 15 messages. *)
Example C58_bomb_ex :
  match UnmarshalVT_ Struct_helpers [10; 7; 10; 1; 2; 18; 20; 42; 18; 10; 7; 10; 1; 1; 18; 11; 42; 9; 10; 7; 10; 1; 0; 18; 2; 42; 0] (Struct_new None) with
  | Ok s => Struct_count s = 15
  | _ => False
  end.
Proof. vm_compute. reflexivity. Qed.
