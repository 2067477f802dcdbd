(** Properties C19-C29, C47, C48: UnmarshalVT.

    All theorems range over every well-formed schema, every upstream implementation
    meeting [up_dec_ok], every byte string (of a length Go slices can have,
    [small]) and every receiver [target] (any message built with the API: well
    typed, no oneof wrapper around a nil message).  Receivers of generated code
    start as [new_msg], which is a target ([zero_is_target]). *)
From Coq Require Import ZArith List Bool Lia.
From Verif Require Import Base BaseFacts Schema Value Helpers Size Marshal Unmarshal WireSpec Typing RecordSpec MsgSpec
  VarintFacts SkipFacts OrderFacts NumFacts ViewFacts TargetFacts UmFacts LoopFacts DecodeSpec DecodeFacts MergeFacts
  SimFacts MarshalFacts MarshalTop Ex.
Import ListNotations.
Open Scope Z_scope.

(** * Vocabulary *)
Definition is_error {S A} (r : res S A) : Prop := exists e s, r = Err e s.
Definition accepts sc m data v v' : Prop := UnmarshalVT sc m data v = Ok v'.
Definition unknown_of (v : val) : list Z := match v with VMsg _ u _ => u | _ => [] end.
Definition member (v : val) (i : nat) : val := match v with VMsg s _ _ => slot s i | _ => VNil end.
Definition declared sc m num : Prop := exists f, In f (md_fields (md_of sc m)) /\ f_num f = num.
Definition declared_b sc m num : bool := existsb (fun f => f_num f =? num) (md_fields (md_of sc m)).
Definition no_required sc m : Prop := forall f, In f (md_fields (md_of sc m)) -> is_required f = false.

Theorem zero_is_target : forall sc m, wf_schema sc = true -> target sc m (new_msg (md_of sc m)).
Proof. intros. now apply target_new. Qed.

(** * The example schema meets the hypotheses. *)
Lemma base_dec_ok : up_dec_ok base_sc.
Proof. split; discriminate. Qed.
Lemma ex_dec_ok : up_dec_ok ex_sc.
Proof.
  split; [|discriminate]. intros m bs v F E.
  assert (m = 2%nat) as ->.
  { destruct m as [|[|[|m]]]; try discriminate F; [reflexivity|]. unfold md_of in F. cbn in F. destruct m; discriminate. }
  cbn [sc_up ex_sc ex_up up_dec] in E. destruct (bytes_ok bs && _) eqn:B; [|discriminate]. apply andb_true_iff in B as [B S].
  destruct (UnmarshalVT_total base_sc eq_refl base_dec_ok 2 bs (new_msg (md_of base_sc 2)) B) as [(x & Ex & T)|(e & x & Ex & T)].
  { unfold small. lia. } { now apply target_new. }
  2:{ rewrite Ex in E. discriminate. }
  rewrite Ex in E. injection E as <-.
  destruct (target_vmsg _ _ _ T) as (s & u & h & ->). apply target_iff in T as (L & Bu & Hh & F2). apply target_iff.
  split; [exact L|]. split; [exact Bu|]. split.
  - intros f p k m' y Hf. destruct Hf as [<-|[]]. discriminate.
  - intros f Hf. destruct (F2 f Hf) as [Wf _]. destruct Hf as [<-|[]]. split.
    + apply wt_field_inv in Wf. cbn [f_ty] in Wf. eapply wt_implicit; [reflexivity|].
      inversion Wf; subst; try discriminate.
      match goal with H : VInt _ = _ |- _ => cbn [f_slot] in *; rewrite <- H end. now apply wt_num.
    + split; cbn [f_ty]; intros; try discriminate.
      match goal with H : TField _ _ = TField _ _ |- _ => injection H as <- <- end.
      match goal with H : _ \/ _ |- _ => destruct H; discriminate end.
Qed.

Ltac tagged := repeat split; vm_compute; congruence.

(** * C19 *)
Theorem C19_total : forall sc m data v,
  wf_schema sc = true -> up_dec_ok sc -> bytes_ok data = true -> small data -> target sc m v ->
  (exists v', accepts sc m data v v' /\ target sc m v') \/
  (exists e v', UnmarshalVT sc m data v = Err e v' /\ target sc m v').
Proof. intros. now apply UnmarshalVT_total. Qed.
Print Assumptions C19_total.
Example C19_nonvacuous :
  target ex_sc 0 (new_msg (md_of ex_sc 0)) /\
  UnmarshalVT ex_sc 0 [26; 255; 255; 255; 255; 255; 255; 255; 255; 255; 1] (new_msg (md_of ex_sc 0))
    = Err EInvalidLength (new_msg (md_of ex_sc 0)) /\
  exists v, UnmarshalVT ex_sc 0 [42; 9; 10; 3; 1; 2; 3; 18; 2; 8; 1; 160; 6; 1] (new_msg (md_of ex_sc 0)) = Ok v.
Proof.
  split; [apply target_new; apply ex_wf|]. split; [vm_compute; reflexivity|].
  eexists. vm_compute. reflexivity.
Qed.

(** For receivers that are not targets the claim is false: a oneof wrapper around
    a nil message, which Go code can build, makes UnmarshalVT panic. *)
Definition ex_nil_member : val := VMsg
  [VInt 0; VNil; VNil; VNil; VNil; VOneof 7 VNil; VInt 0; VNil; VNil; VNil] [] [].
Theorem C19_nil_member_refuted : exists sc m data v,
  wf_schema sc = true /\ up_dec_ok sc /\ bytes_ok data = true /\ small data /\ wt_msg sc m v /\
  UnmarshalVT sc m data v = Panic.
Proof.
  exists ex_sc, 0%nat, [58; 2; 8; 1], ex_nil_member.
  split; [apply ex_wf|]. split; [apply ex_dec_ok|]. split; [reflexivity|]. split; [reflexivity|].
  split; [now apply (check_ok ex_sc 5)|]. vm_compute. reflexivity.
Qed.
Print Assumptions C19_nil_member_refuted.

(** * C20: conforming input is decoded as DecodeSpec.v says. *)
Theorem C20_decodes : forall sc m bs v v',
  wf_schema sc = true -> up_dec_ok sc -> bytes_ok bs = true -> small bs -> target sc m v ->
  md_foreign (md_of sc m) = false ->
  decodes sc m bs v v' -> accepts sc m bs v v'.
Proof.
  intros sc m bs v v' W U B S T F D. destruct (dec_ok sc W U) as (_ & PD & _).
  specialize (PD _ _ _ _ D T B S (Datatypes.S (length bs)) 0 ltac:(lia)).
  unfold decodeMessage in PD. rewrite F in PD. exact PD.
Qed.
Print Assumptions C20_decodes.
(** A scalar given twice, a packed field in both forms, a list of messages, a map
    with a key given twice, a oneof switching members, a sub-message without
    helpers, an unknown field, and a tag written in two bytes instead of one. *)
Definition ex_conf : list Z :=
  [8; 1] ++ [136; 0; 2] ++ [26; 2; 1; 4] ++ [24; 6] ++ [34; 2; 8; 7] ++
  [42; 7; 10; 1; 97; 18; 2; 8; 1] ++ [42; 7; 18; 2; 8; 5; 10; 1; 97] ++
  [50; 1; 120] ++ [58; 2; 8; 3] ++ [162; 1; 2; 8; 77] ++ [160; 6; 1] ++ [].
Definition ex_conf_v : val := VMsg
  [ VInt 2; VNil; VList [VInt (-1); VInt 2; VInt 3];
    VList [VMsg [VInt 7; VNil; VNil; VNil; VNil; VNil; VInt 0; VNil; VNil; VNil] [] []];
    VMap [(VStr [97], ex_req 5)]; VOneof 7 (ex_req 3); VInt 0; VNil; VMsg [VInt 77] [] []; VNil ]
  [160; 6; 1] [].
Ltac len := split; [reflexivity|split; [vm_compute; congruence|reflexivity]].
Lemma ex_req_dec z b : b = [8; z] -> 0 <= z < 128 -> decodes ex_sc 1 b (new_msg ex_m1) (ex_req z).
Proof.
  intros -> Hz. eapply dec_own with (nums := [1]); [reflexivity| |].
  - change [8; z] with (([8] ++ [z]) ++ []). eapply df_cons; [|constructor].
    eapply (dr_present ex_sc 1 (mkF 1 0 (TField LRequired KInt32)) LRequired KInt32 [8] [z] (VInt z));
      [now left|reflexivity|now right|tagged|].
    constructor. split; [cbn; lia|]. split; [vm_compute; congruence|]. 
    cbn [varint_num]. replace (vval [z]) with z by (cbn [vval]; rewrite Z.mod_small; lia). symmetry. apply s32_id. lia.
  - intros f [<-|[<-|[]]] R; [now left|discriminate].
Qed.
Example C20_nonvacuous : decodes ex_sc 0 ex_conf (new_msg ex_m0) ex_conf_v.
Proof.
  assert (forall z, 0 <= z < 128 -> dec_value ex_sc (KMessage 1) (new_msg ex_m1) [2; 8; z] (ex_req z)) as RQ.
  { intros z Hz. apply (dv_msg ex_sc 1 (new_msg ex_m1) [2] [8; z]); [len|now apply ex_req_dec]. }
  eapply dec_own; [reflexivity| |intros f Hf R; repeat (destruct Hf as [<-|Hf]; [discriminate R|]); destruct Hf].
  unfold ex_conf.
  eapply df_cons.
  { apply (dr_implicit ex_sc 0 (mkF 1 0 (TField LImplicit KInt32)) KInt32 [8] [1] (VInt 1)); [now left|reflexivity|tagged|].
    constructor. tagged. }
  eapply df_cons.
  { apply (dr_implicit ex_sc 0 (mkF 1 0 (TField LImplicit KInt32)) KInt32 [136; 0] [2] (VInt 2)); [now left|reflexivity|tagged|].
    constructor. tagged. }
  eapply df_cons.
  { apply (dr_packed ex_sc 0 (mkF 3 2 (TField (LRepeated true) KSint64)) true KSint64 [26] [2] [[1]; [4]] [-1; 2]);
      [cbn; tauto|reflexivity|reflexivity|tagged|len|]. repeat constructor; tagged. }
  eapply df_cons.
  { apply (dr_repeated ex_sc 0 (mkF 3 2 (TField (LRepeated true) KSint64)) true KSint64 [24] [6] (VInt 3));
      [cbn; tauto|reflexivity|tagged| |intros HH; now destruct HH]. constructor. tagged. }
  eapply df_cons.
  { apply (dr_repeated ex_sc 0 (mkF 4 3 (TField (LRepeated false) (KMessage 0))) false (KMessage 0) [34] [2; 8; 7]
      (VMsg [VInt 7; VNil; VNil; VNil; VNil; VNil; VInt 0; VNil; VNil; VNil] [] []));
      [cbn; tauto|reflexivity|tagged| |reflexivity].
    apply (dv_msg ex_sc 0 (new_msg ex_m0) [2] [8; 7]); [len|].
    eapply dec_own; [reflexivity| |intros f Hf R; repeat (destruct Hf as [<-|Hf]; [discriminate R|]); destruct Hf].
    change [8; 7] with (([8] ++ [7]) ++ []). eapply df_cons; [|constructor].
    apply (dr_implicit ex_sc 0 (mkF 1 0 (TField LImplicit KInt32)) KInt32 [8] [7] (VInt 7)); [now left|reflexivity|tagged|].
    constructor. tagged. }
  eapply df_cons.
  { apply (dr_map ex_sc 0 (mkF 5 4 (TMap KString (KMessage 1))) KString (KMessage 1) [42] [7] [10; 1; 97; 18; 2; 8; 1]
      (Some (VStr [97])) (Some (ex_req 1)) [(VStr [97], ex_req 1)]); [cbn; tauto|reflexivity|tagged|len| |].
    - apply (de_key ex_sc KString (KMessage 1) [10] [1; 97] [18; 2; 8; 1]); [tagged|apply (dv_str ex_sc VNil [1] [97]); len|].
      apply (de_value ex_sc KString (KMessage 1) [18] [2; 8; 1] []); [tagged|apply RQ; lia|constructor].
    - apply (mp_new []). intros []. }
  eapply df_cons.
  { apply (dr_map ex_sc 0 (mkF 5 4 (TMap KString (KMessage 1))) KString (KMessage 1) [42] [7] [18; 2; 8; 5; 10; 1; 97]
      (Some (VStr [97])) (Some (ex_req 5)) [(VStr [97], ex_req 5)]); [cbn; tauto|reflexivity|tagged|len| |].
    - apply (de_value ex_sc KString (KMessage 1) [18] [2; 8; 5] [10; 1; 97]); [tagged|apply RQ; lia|].
      apply (de_key ex_sc KString (KMessage 1) [10] [1; 97] []); [tagged|apply (dv_str ex_sc VNil [1] [97]); len|constructor].
    - apply (mp_old [] []). }
  eapply df_cons.
  { apply (dr_oneof ex_sc 0 (mkF 6 5 (TField LOneof KString)) KString [50] [1; 120] (VStr [120])); [cbn; tauto|reflexivity|tagged|].
    apply (dv_str ex_sc _ [1] [120]); len. }
  eapply df_cons.
  { apply (dr_oneof ex_sc 0 (mkF 7 5 (TField LOneof (KMessage 1))) (KMessage 1) [58] [2; 8; 3] (ex_req 3));
      [cbn; tauto|reflexivity|tagged|]. apply RQ; lia. }
  eapply df_cons.
  { apply (dr_present ex_sc 0 (mkF 20 8 (TField LOptional (KMessage 2))) LOptional (KMessage 2) [162; 1] [2; 8; 77] (VMsg [VInt 77] [] []));
      [cbn; tauto|reflexivity|now left|tagged|].
    apply (dv_msg ex_sc 2 (new_msg (ex_m2 true)) [2] [8; 77]); [len|]. now apply dec_up. }
  eapply df_cons; [|constructor].
  apply (dr_unknown ex_sc 0 100 0 [160; 6; 1]).
  - split; [lia|]. split; [|intros r []]. intros f Hf. repeat (destruct Hf as [<-|Hf]; [discriminate|]). destruct Hf.
  - apply (rec_varint false 100 [160; 6] [1]); [tagged|reflexivity|vm_compute; congruence].
Qed.

(** * C21 *)
Theorem C21_concat : forall sc m a b v v1,
  wf_schema sc = true -> up_dec_ok sc -> bytes_ok (a ++ b) = true -> small (a ++ b) -> target sc m v ->
  accepts sc m a v v1 ->
  (forall v2, accepts sc m b v1 v2 -> accepts sc m (a ++ b) v v2) /\
  (no_required sc m ->
     (forall v2, accepts sc m (a ++ b) v v2 <-> accepts sc m b v1 v2) /\
     (is_error (UnmarshalVT sc m (a ++ b) v) <-> is_error (UnmarshalVT sc m b v1))).
Proof.
  intros sc m a b v v1 W U B S T E1. split.
  - intros v2 E2. eapply concat_ok; eauto.
  - intros NR. destruct (concat_steps sc W U m a b v v1 B S T E1) as [T1 _].
    assert (bytes_ok b = true) as Bb by (rewrite bytes_ok_app in B; now apply andb_true_iff in B).
    assert (small b) as Sb by (unfold small in *; rewrite zlen_app in S; pose proof (zlen_nonneg a); lia).
    destruct (UnmarshalVT_total sc W U m b v1 Bb Sb T1) as [(v2 & E2 & _)|(e & v2 & E2 & _)].
    + pose proof (concat_ok sc W U m a b v v1 v2 B S T E1 E2) as E3. unfold accepts. rewrite E2, E3. split; [reflexivity|].
      split; intros (? & ? & ?); discriminate.
    + destruct (concat_err sc W U m a b v v1 e v2 B S T NR E1 E2) as [e' E3]. unfold accepts. rewrite E2, E3.
      split; [split; discriminate|]. split; intros _; do 2 eexists; reflexivity.
Qed.
Print Assumptions C21_concat.
Example C21_nonvacuous :
  no_required ex_sc 0 /\
  accepts ex_sc 0 [58; 2; 8; 3] (new_msg ex_m0)
    (VMsg [VInt 0; VNil; VNil; VNil; VNil; VOneof 7 (ex_req 3); VInt 0; VNil; VNil; VNil] [] []) /\
  is_error (UnmarshalVT ex_sc 0 [58; 2; 18; 0]
    (VMsg [VInt 0; VNil; VNil; VNil; VNil; VOneof 7 (ex_req 3); VInt 0; VNil; VNil; VNil] [] [])).
Proof.
  split; [intros f Hf; repeat (destruct Hf as [<-|Hf]; [reflexivity|]); destruct Hf|].
  split; [vm_compute; reflexivity|]. do 2 eexists. vm_compute. reflexivity.
Qed.

(** With required fields UnmarshalVT of [b] alone may fail although [a ++ b] is
    accepted: every call looks for the required fields in its own input. *)
Theorem C21_required_refuted : exists sc m a b v v1 v2,
  wf_schema sc = true /\ up_dec_ok sc /\ bytes_ok (a ++ b) = true /\ small (a ++ b) /\ target sc m v /\
  accepts sc m a v v1 /\ accepts sc m (a ++ b) v v2 /\ is_error (UnmarshalVT sc m b v1).
Proof.
  exists ex_sc, 1%nat, [8; 1], [18; 1; 7], (new_msg ex_m1), (ex_req 1), (VMsg [VPtr (VInt 1); VBytes [7]] [] []).
  split; [apply ex_wf|]. split; [apply ex_dec_ok|]. split; [reflexivity|]. split; [reflexivity|].
  split; [apply (target_new ex_sc ex_wf 1)|]. split; [reflexivity|]. split; [reflexivity|]. do 2 eexists. reflexivity.
Qed.
Print Assumptions C21_required_refuted.

(** * C22 *)
(** Accepted input is a sequence of chunks, each starting with the tag of some
    field number; those of undeclared numbers are complete records, and exactly
    they are added to the unknown fields, in order (or dropped). *)
Theorem C22_unknown_kept : forall sc m data v v',
  wf_schema sc = true -> up_dec_ok sc -> bytes_ok data = true -> small data -> target sc m v ->
  md_ext (md_of sc m) = [] -> accepts sc m data v v' ->
  exists cs : list (Z * list Z),
    data = concat (map snd cs) /\
    Forall (fun nc => starts (snd nc) (fst nc) /\
                      (~ declared sc m (fst nc) -> exists n wt, record false n wt (snd nc))) cs /\
    unknown_of v' = if md_keep (md_of sc m)
      then unknown_of v ++ concat (map snd (filter (fun nc => negb (declared_b sc m (fst nc))) cs))
      else unknown_of v.
Proof.
  intros sc m data v v' W U B S T X E. destruct (UnmarshalVT_run sc W U m data v v' B S T E) as (cs & -> & R & _).
  exists cs. split; [reflexivity|]. clear E B S T. revert v v' R.
  assert (forall num, declared_b sc m num = true <-> declared sc m num) as DB.
  { intros num. unfold declared_b, declared. rewrite existsb_exists. split; intros (f & Hf & E); exists f; split; auto; lia. }
  induction cs as [|[num c] cs IH]; intros v v' R; inversion R as [|? ? ? ? v1 ? C R1]; subst.
  - split; [constructor|]. cbn. rewrite app_nil_r. now destruct (md_keep _).
  - destruct (IH _ _ R1) as [F Eu]. cbn [filter fst]. split.
    + constructor; [|assumption]. cbn [fst snd]. destruct C as [f c v v1 Hf St _|num n wt c v v1 Hd St Rc|num n wt c s u h Hd St Rc]; (split; [assumption|]); eauto.
      intros ND. destruct ND. exists f. auto.
    + rewrite Eu. destruct C as [f c v v1 Hf St Fr|num n wt c v v1 Hd St Rc _ _ Ie|num n wt c s u h Hd St Rc _ _ Ie].
      * replace (declared_b sc m (f_num f)) with true by (symmetry; apply DB; exists f; auto). cbn [negb].
        destruct Fr as (s & u & h & s' & h' & -> & -> & _). reflexivity.
      * unfold in_ext in Ie. rewrite X in Ie. discriminate.
      * assert (declared_b sc m num = false) as ->.
        { destruct (declared_b sc m num) eqn:Ed; [|reflexivity]. apply DB in Ed as (f & Hf & En). now destruct (Hd f Hf). }
        cbn [negb map snd concat unknown_of]. destruct (md_keep _); [now rewrite app_assoc|reflexivity].
Qed.
Print Assumptions C22_unknown_kept.
Example C22_nonvacuous : exists v',
  accepts ex_sc 0 [160; 6; 1; 8; 5; 170; 6; 2; 1; 2] (new_msg ex_m0) v' /\
  unknown_of v' = [160; 6; 1; 170; 6; 2; 1; 2] /\ md_ext (md_of ex_sc 0) = [].
Proof. eexists. split; [vm_compute; reflexivity|]. split; reflexivity. Qed.

(** What MarshalVT writes ends with the unknown fields (or contains none). *)
Theorem C22_emitted : forall sc strict m v bs,
  wf_schema sc = true -> up_enc_ok sc -> wt_msg sc m v ->
  MarshalVT sc strict m v = Ok (Some bs) ->
  exists fields, bs = fields ++ (if md_keep (md_of sc m) then unknown_of v else []) /\
    (forall w u', match v with VMsg s _ h => w = VMsg s u' h | _ => False end -> bytes_ok u' = true ->
       MarshalVT sc strict m w = Ok (Some (fields ++ if md_keep (md_of sc m) then u' else []))).
Proof.
  intros sc strict m v bs W U H E. assert (wt_ptrmsg sc m v) as H' by now right.
  assert (v <> VNil) as N by (intros ->; inversion H).
  pose proof (top_marshal sc W U strict m v H' N) as TM. rewrite E in TM.
  destruct (Initialized sc m v) eqn:I; cbn [outcome] in TM; [|destruct TM; discriminate]. injection TM as ->.
  inversion H as [? s u h L F Bu]; subst. unfold Encoding. cbn [enc_msg enc_body vdepth unknown_of].
  eexists. split; [reflexivity|]. intros w u' -> Bu'.
  assert (wt_msg sc m (VMsg s u' h)) as H2 by (constructor; auto).
  pose proof (top_marshal sc W U strict m (VMsg s u' h) (or_intror H2) ltac:(discriminate)) as TM.
  replace (Initialized sc m (VMsg s u' h)) with true in TM by (symmetry; exact I). exact TM.
Qed.
Print Assumptions C22_emitted.

(** A message made of undeclared records only: read, counted and written back
    byte for byte. *)
Theorem C22_verbatim : forall sc m strict rs,
  wf_schema sc = true -> up_dec_ok sc -> up_enc_ok sc -> no_required sc m ->
  md_foreign (md_of sc m) = false -> md_keep (md_of sc m) = true ->
  Forall (fun c => exists num wt, undeclared sc m num /\ record false num wt c) rs ->
  bytes_ok (concat rs) = true -> small (concat rs) ->
  exists v', accepts sc m (concat rs) (new_msg (md_of sc m)) v' /\
    unknown_of v' = concat rs /\
    SizeVT sc m v' = zlen (concat rs) /\
    MarshalVT sc strict m v' = Ok (Some (concat rs)).
Proof.
  intros sc m strict rs W UD UE NR FN K F B S.
  exists (VMsg (zero_slots (md_of sc m)) (concat rs) []).
  assert (decodes sc m (concat rs) (new_msg (md_of sc m)) (VMsg (zero_slots (md_of sc m)) (concat rs) [])) as D.
  { assert (forall u, exists nums, dec_fields sc m (concat rs) (VMsg (zero_slots (md_of sc m)) u []) (VMsg (zero_slots (md_of sc m)) (u ++ concat rs) []) nums) as G.
    { clear B S. induction F as [|c rs (num & wt & Hu & R) F IH]; intros u.
      - cbn. rewrite app_nil_r. eexists. constructor.
      - destruct (IH (u ++ c)) as [nums D]. exists (num :: nums). cbn [concat]. econstructor; [eapply dr_unknown; eauto|].
        rewrite K, app_assoc. exact D. }
    destruct (G []) as [nums D]. econstructor; eauto. intros f Hf R. rewrite (NR f Hf) in R. discriminate. }
  assert (accepts sc m (concat rs) (new_msg (md_of sc m)) (VMsg (zero_slots (md_of sc m)) (concat rs) [])) as A.
  { apply C20_decodes; auto. now apply target_new. }
  split; [assumption|]. split; [reflexivity|].
  assert (wt_msg sc m (VMsg (zero_slots (md_of sc m)) (concat rs) [])) as WT.
  { destruct (target_new sc W m) as [Wn _]. inversion Wn; subst. constructor; auto. }
  assert (Encoding sc (order sc strict) m (VMsg (zero_slots (md_of sc m)) (concat rs) []) = concat rs) as En.
  { unfold Encoding. cbn [enc_msg enc_body]. rewrite K.
    replace (concat (map _ (order sc strict m))) with (@nil Z); [reflexivity|].
    symmetry. apply concat_nil_Forall, Forall_map, Forall_forall. intros f Hf.
    assert (In f (md_fields (md_of sc m))) as Hf' by (eapply Permutation.Permutation_in; [apply order_perm|eassumption]).
    rewrite (zero_slots_of sc W m f Hf'). unfold enc_field. destruct (f_ty f) as [[| | |p|] k|kk vk] eqn:Ty; try reflexivity.
    - destruct k; reflexivity.
    - destruct p; reflexivity. }
  split.
  - rewrite (top_size sc W UE strict m _ (or_intror WT)). now rewrite En.
  - pose proof (top_marshal sc W UE strict m _ (or_intror WT) ltac:(discriminate)) as TM. rewrite En in TM.
    replace (Initialized _ _ _) with true in TM; [exact TM|].
    unfold Initialized. symmetry. cbn [req_msg req_body]. apply forallb_forall. intros f Hf.
    rewrite (zero_slots_of sc W m f Hf). specialize (NR f Hf). unfold is_required in NR. unfold req_field.
    pose proof (wf_ty sc m f W Hf) as WTy.
    destruct (f_ty f) as [[| | |p|] k|kk vk] eqn:Ty; try reflexivity; try discriminate.
    destruct k; try reflexivity.
Qed.
Print Assumptions C22_verbatim.
Example C22_verbatim_nonvacuous :
  Forall (fun c => exists num wt, undeclared ex_sc 0 num /\ record false num wt c) [[160; 6; 1]; [171; 6; 8; 1; 172; 6]].
Proof.
  assert (forall num, num = 100 \/ num = 101 -> undeclared ex_sc 0 num) as UN.
  { intros num Hn. split; [lia|]. split; [|intros r []]. intros f Hf. repeat (destruct Hf as [<-|Hf]; [cbn; lia|]). destruct Hf. }
  repeat constructor.
  - exists 100, 0. split; [apply UN; lia|]. apply (rec_varint false 100 [160; 6] [1]); [tagged|reflexivity|vm_compute; congruence].
  - exists 101, 3. split; [apply UN; lia|]. apply (rec_group false 101 [171; 6] [8; 1] [172; 6] 101); [tagged| |tagged|discriminate].
    apply (recs_cons false 1 0 [8; 1] []); [|constructor].
    apply (rec_varint false 1 [8] [1]); [tagged|reflexivity|vm_compute; congruence].
Qed.

(** * C23 *)
(** After any conforming records [p]: a length-delimited record, of any field
    declared or not, that announces more bytes than are left is an error, and the
    receiver is left as [p] left it. *)
Theorem C23_hostile_length : forall sc m p t num l rest v v1 nums,
  wf_schema sc = true -> up_dec_ok sc -> target sc m v ->
  bytes_ok (p ++ t ++ l ++ rest) = true -> small (p ++ t ++ l ++ rest) ->
  dec_fields sc m p v v1 nums -> is_tag t num 2 ->
  is_varint l = true -> zlen l <= 10 -> zlen rest < vval l mod 18446744073709551616 ->
  exists e, UnmarshalVT sc m (p ++ t ++ l ++ rest) v = Err e v1.
Proof. intros. eapply hostile_length; eauto. Qed.
Print Assumptions C23_hostile_length.
(** A negative length (-1), the largest positive one (index overflow), one too many. *)
Example C23_nonvacuous :
  zlen [1; 2; 3] < vval [255; 255; 255; 255; 255; 255; 255; 255; 255; 1] mod 18446744073709551616 /\
  zlen [1; 2; 3] < vval [255; 255; 255; 255; 255; 255; 255; 255; 127] mod 18446744073709551616 /\
  zlen [1; 2; 3] < vval [4] mod 18446744073709551616 /\
  is_tag [18] 2 2 /\ is_tag [42] 5 2 /\
  UnmarshalVT ex_sc 0 ([8; 1] ++ [42] ++ [4] ++ [1; 2; 3]) (new_msg ex_m0)
    = Err EUnexpectedEOF (VMsg [VInt 1; VNil; VNil; VNil; VNil; VNil; VInt 0; VNil; VNil; VNil] [] []).
Proof. repeat split; vm_compute; congruence. Qed.

(** An error inside a sub-message is an error of the whole. *)
Theorem C23_nested : forall sc m p t f l q rest v v1 nums lbl m',
  wf_schema sc = true -> up_dec_ok sc -> target sc m v ->
  bytes_ok (p ++ t ++ l ++ q ++ rest) = true -> small (p ++ t ++ l ++ q ++ rest) ->
  dec_fields sc m p v v1 nums ->
  In f (md_fields (md_of sc m)) -> f_ty f = TField lbl (KMessage m') -> is_tag t (f_num f) 2 -> is_len l (zlen q) ->
  md_foreign (md_of sc m') = false ->
  (forall x, target sc m' x -> is_error (UnmarshalVT sc m' q x)) ->
  is_error (UnmarshalVT sc m (p ++ t ++ l ++ q ++ rest) v).
Proof.
  intros sc m p t f l q rest v v1 nums lbl m' W U T B S D Hf Ty Ht Hl FN HE.
  destruct (after_fields sc W U m p (t ++ l ++ q ++ rest) v v1 nums D B S T) as [T1 _].
  assert (exists e st, um_step sc (fun _ => um_msg sc (length (p ++ t ++ l ++ q ++ rest))) (safe_env sc) m (p ++ t ++ l ++ q ++ rest) (zlen p) v1
    (marksn sc m nums (has_init (md_of sc m))) = Err e st) as (e & st & E).
  2:{ exists e, st. eapply step_err; eauto. apply app_ne. eapply is_tag_ne; eauto. }
  unfold um_step. rewrite (tag_read t _ _ p (l ++ q ++ rest) Ht). cbn [lift rbind].
  rewrite (tag_wt _ _ _ Ht), (tag_num _ _ _ Ht). change (2 =? 4) with false. cbv iota zeta.
  pose proof (wf_num sc m f W Hf) as Hn. rewrite num_small by lia.
  replace (f_num f <=? 0) with false by lia. rewrite (find_field_in sc m f W Hf).
  assert (bytes_ok (l ++ q ++ rest) = true /\ bytes_ok q = true) as [B1 Bq] by (rewrite !bytes_ok_app, !andb_true_iff in *; tauto).
  rewrite !bytes_ok_app, !andb_true_iff in B.
  assert (small q) as Sq.
  { unfold small in *. rewrite !zlen_app in S. pose proof (zlen_nonneg p). pose proof (zlen_nonneg t).
    pose proof (zlen_nonneg l). pose proof (zlen_nonneg rest). lia. }
  assert (forall x i, target sc m' x -> exists e y, decodeMessage sc (fun _ => um_msg sc (length (p ++ t ++ l ++ q ++ rest))) i m' q x = Err e y) as DE.
  { intros x i Tx. unfold decodeMessage. rewrite FN.
    pose proof (is_tag_ne _ _ _ Ht) as Nt.
    destruct (um_msg_call sc W U (length (p ++ t ++ l ++ q ++ rest)) m' q x) as [(y & _ & Ey & _)|(e & e' & y & Ey & _)]; auto.
    - rewrite !app_length. destruct t; [contradiction|]. cbn. lia.
    - destruct (HE x Tx) as (? & ? & ?). congruence.
    - eauto. }
  assert (exists e st, um_field sc (fun _ => um_msg sc (length (p ++ t ++ l ++ q ++ rest))) (safe_env sc) (md_of sc m) f (u64 (vval t)) (p ++ t ++ l ++ q ++ rest) (zlen p + zlen t) v1 = Err e st) as (e & st & ->);
    [|do 2 eexists; reflexivity].
  unfold um_field. rewrite Ty, (tag_wt _ _ _ Ht).
  replace (packable lbl (KMessage m')) with false by now destruct lbl.
  change (2 =? ProtoWireType (KMessage m')) with true. cbv iota. unfold fieldItem. cbn [classify]. unfold message_item.
  assert (decodeLen false (p ++ t ++ l ++ q ++ rest) (zlen p + zlen t) = Ok (zlen (p ++ t) + zlen l, zlen (p ++ t) + zlen l + zlen q)) as ->.
  { rewrite <- zlen_app, (app_assoc p t). apply decodeLen_ok; auto. now rewrite <- app_assoc. }
  cbn [lift rbind]. rewrite (app_assoc p t), (app_assoc l q rest), zslice_at. cbn [orpanic rbind].
  destruct (target_vmsg _ _ _ T1) as (s & u & h & ->).
  cbn [ue_alloc safe_env]. assert (forall b : bool, (if b then new_msg (md_of sc m') else new_msg (md_of sc m')) = new_msg (md_of sc m')) as FR
      by now intros [].
  cbv zeta. rewrite !FR.
  rewrite <- (app_assoc l q rest), <- (app_assoc p t).
  pose proof (wf_ty sc m f W Hf) as WT. rewrite Ty in WT. cbn in WT.
  assert (forall (x : res val val) fn, (exists e y, x = Err e y) -> (forall y, exists z, fn y = Some z) -> exists e st, nest x fn = Err e st) as NE.
  { intros x fn (e & y & ->) Hfn. cbn. destruct (Hfn y) as [z ->]. eauto. }
  destruct lbl as [| | |pk|].
  - rewrite andb_comm in WT. discriminate.
  - edestruct NE as (e & st & ->); [| |do 2 eexists; reflexivity]; [|intros y; eexists; reflexivity].
    apply DE. destruct (slot_sub sc m f _ _ m' s u h T1 Hf Ty (or_introl eq_refl) eq_refl) as [->|Tx]; [now apply target_new|].
    destruct (target_vmsg _ _ _ Tx) as (? & ? & ? & Ex). now rewrite Ex in *.
  - edestruct NE as (e & st & ->); [| |do 2 eexists; reflexivity]; [|intros y; eexists; reflexivity].
    apply DE. destruct (slot_sub sc m f _ _ m' s u h T1 Hf Ty (or_intror eq_refl) eq_refl) as [->|Tx]; [now apply target_new|].
    destruct (target_vmsg _ _ _ Tx) as (? & ? & ? & Ex). now rewrite Ex in *.
  - destruct (list_grow sc (md_of sc m) m' h (f_slot f)) as [tg h'] eqn:G.
    edestruct NE as (e & st & ->); [| |do 2 eexists; reflexivity]; [|intros y; eexists; reflexivity].
    apply DE. unfold list_grow in G. destruct (md_pool (md_of sc m)); [|injection G as <- <-; now apply target_new].
    destruct (nth (f_slot f) h []) as [|y r] eqn:Nh; injection G as <- <-; [now apply target_new|].
    apply target_iff in T1 as (_ & _ & Hh & _). destruct (Hh f pk (KMessage m') m' y Hf Ty eq_refl) as [->|Ty2]; [rewrite Nh; now left|now apply target_new|].
    destruct (target_vmsg _ _ _ Ty2) as (? & ? & ? & ->). exact Ty2.
  - destruct (slot s (f_slot f)) as [| | | | | | |n0 x| | |] eqn:Es;
      try (destruct (DE (new_msg (md_of sc m')) (zlen (p ++ t) + zlen l) (target_new sc W m')) as (e & y & ->); do 2 eexists; reflexivity).
    destruct (n0 =? f_num f) eqn:En.
    + edestruct NE as (e & st & ->); [| |do 2 eexists; reflexivity]; [|intros y; eexists; reflexivity].
      apply DE. apply Z.eqb_eq in En as ->. eapply slot_oneof; eauto; reflexivity.
    + destruct (DE (new_msg (md_of sc m')) (zlen (p ++ t) + zlen l) (target_new sc W m')) as (e & y & ->). do 2 eexists. reflexivity.
Qed.
Print Assumptions C23_nested.
