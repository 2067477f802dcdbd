(** Properties C24-C29, C47, C48: records, required fields, oneofs, and what the
    generated UnmarshalVT gets wrong. *)
From Coq Require Import ZArith List Bool Lia.
From Verif Require Import Base BaseFacts Schema Value Helpers Size Marshal Unmarshal WireSpec Typing RecordSpec MsgSpec
  VarintFacts SkipFacts OrderFacts NumFacts ViewFacts TargetFacts UmFacts LoopFacts DecodeSpec DecodeFacts MergeFacts
  SimFacts MarshalFacts MarshalTop Ex PropsUnmarshal.
Import ListNotations.
Open Scope Z_scope.

(** * C24 ([C24_marshalled] in PropsRoundTrip.v: for the output of MarshalVT) *)
(** A prefix of conforming input that UnmarshalVT accepts is itself a sequence of
    complete records, decoded as in the whole input. *)
Theorem C24_truncated : forall sc m p q v v' v1 nums,
  wf_schema sc = true -> up_dec_ok sc -> bytes_ok (p ++ q) = true -> small (p ++ q) -> target sc m v ->
  dec_fields sc m (p ++ q) v v' nums -> accepts sc m p v v1 ->
  exists n1 n2, dec_fields sc m p v v1 n1 /\ dec_fields sc m q v1 v' n2 /\ nums = n1 ++ n2.
Proof. intros. eapply prefix_boundary; eauto. Qed.
Print Assumptions C24_truncated.
Example C24_nonvacuous :
  (exists nums, dec_fields ex_sc 0 ([8; 1; 136; 0; 2] ++ skipn 5 ex_conf) (new_msg ex_m0) ex_conf_v nums) /\
  (exists v1, accepts ex_sc 0 [8; 1; 136; 0; 2] (new_msg ex_m0) v1) /\
  is_error (UnmarshalVT ex_sc 0 [8; 1; 136; 0] (new_msg ex_m0)).
Proof.
  split; [|split].
  - pose proof C20_nonvacuous as D. inversion D as [m bs v v' nums F DF _ E1 E2 E3|m bs v' F]; subst; [|discriminate F].
    exists nums. exact DF.
  - eexists. vm_compute. reflexivity.
  - do 2 eexists. vm_compute. reflexivity.
Qed.

(** * C25 *)
(** Conforming input without a record of some required field is an error. *)
Theorem C25_conforming : forall sc m bs v v' nums f,
  wf_schema sc = true -> up_dec_ok sc -> bytes_ok bs = true -> small bs -> target sc m v ->
  dec_fields sc m bs v v' nums ->
  In f (md_fields (md_of sc m)) -> is_required f = true -> ~ In (f_num f) nums ->
  UnmarshalVT sc m bs v = Err ERequired v'.
Proof.
  intros sc m bs v v' nums f W U B S T D Hf R N. rewrite (fields_result sc W U m bs v v' nums D B S T).
  destruct (has_all _ _) eqn:HA; [|reflexivity]. destruct N. exact (proj1 (marksn_all sc W m nums) HA f Hf R).
Qed.
Print Assumptions C25_conforming.

(** Any input, split as UnmarshalVT splits it: every required number occurs as the
    number of a piece.  Partial: the pieces are those of the decoder; [C25_refuted]
    shows that they need not be the records of the input. *)
Theorem C25_any_input_partial : forall sc m data v v',
  wf_schema sc = true -> up_dec_ok sc -> bytes_ok data = true -> small data -> target sc m v ->
  accepts sc m data v v' ->
  exists cs : list (Z * list Z),
    data = concat (map snd cs) /\ Forall (fun nc => starts (snd nc) (fst nc)) cs /\
    forall f, In f (md_fields (md_of sc m)) -> is_required f = true -> In (f_num f) (map fst cs).
Proof.
  intros sc m data v v' W U B S T E. destruct (UnmarshalVT_run sc W U m data v v' B S T E) as (cs & -> & R & HA).
  exists cs. split; [reflexivity|]. split.
  - clear -R. induction R as [|num c cs v v1 v' C R IH]; constructor; auto. destruct C; assumption.
  - apply (marksn_all sc W m). unfold marks in HA. unfold marksn.
    rewrite <- HA. f_equal. clear. generalize (has_init (md_of sc m)). induction cs as [|c cs IH]; intros h; cbn; auto.
Qed.
Print Assumptions C25_any_input_partial.

Lemma run_frame sc m cs v v' : wf_schema sc = true -> md_ext (md_of sc m) = [] -> run sc m cs v v' -> target sc m v ->
  (forall f, In f (md_fields (md_of sc m)) -> is_required f = true ->
     In (f_num f) (map fst cs) \/ member v (f_slot f) <> VNil -> member v' (f_slot f) <> VNil) /\
  (forall f, In f (md_fields (md_of sc m)) -> is_oneof f = true ->
     (forall cs1 c cs2, cs = cs1 ++ (f_num f, c) :: cs2 ->
        (forall g, In g (md_fields (md_of sc m)) -> f_slot g = f_slot f -> ~ In (f_num g) (map fst cs2)) ->
        exists x, member v' (f_slot f) = VOneof (f_num f) x) /\
     ((forall g, In g (md_fields (md_of sc m)) -> f_slot g = f_slot f -> ~ In (f_num g) (map fst cs)) ->
        member v' (f_slot f) = member v (f_slot f))).
Proof.
  intros W X R _. induction R as [v|num c cs v v1 v' C R IH].
  - split; intros f Hf Hr.
    + intros [[]|H]; assumption.
    + split; [intros [|] ? ? E; discriminate|auto].
  - destruct IH as [IH1 IH2].
    assert (forall i, (forall g, In g (md_fields (md_of sc m)) -> f_slot g = i -> f_num g <> num) -> member v1 i = member v i) as KEEP.
    { intros i Hi. destruct C as [f c v v1 Hf St Fr|num n wt c v v1 Hd St Rc _ _ Ie|num n wt c s u h Hd St Rc _ _ Ie].
      - destruct Fr as (s & u & h & s' & h' & -> & -> & K & _). cbn. apply K. intros ->. now apply (Hi f).
      - unfold in_ext in Ie. rewrite X in Ie. discriminate.
      - reflexivity. }
    assert (forall f, In f (md_fields (md_of sc m)) -> f_num f = num -> field_frame f v v1) as FF.
    { intros f Hf En. destruct C as [g c v v1 Hg St Fr|num n wt c v v1 Hd St Rc _ _ Ie|num n wt c s u h Hd St Rc _ _ Ie].
      - assert (f = g) as -> by (eapply wf_num_inj; eauto). assumption.
      - now destruct (Hd f Hf).
      - now destruct (Hd f Hf). }
    split; intros f Hf Hr.
    + intros H. apply IH1; auto. destruct (Z.eq_dec (f_num f) num) as [En|En].
      * right. destruct (FF f Hf En) as (s & u & h & s' & h' & -> & -> & _ & K & _). cbn. auto.
      * destruct H as [[H|H]|H]; [cbn in H; congruence|now left|right].
        rewrite KEEP; [assumption|]. intros g Hg Sg Eg. apply En. rewrite <- Eg. f_equal.
        destruct (wf_compat sc m f g W Hf Hg) as [_ Co].
        -- intros ->. congruence.
        -- destruct (Co (eq_sym Sg)) as [Of _]. unfold is_oneof, is_required in *. destruct (f_ty f) as [[]|]; discriminate.
    + destruct (IH2 f Hf Hr) as [L1 L2]. split.
      * intros [|[n0 c0] cs1] c' cs2 E NI; cbn in E.
        -- injection E as -> -> ->. rewrite L2 by assumption.
           destruct (FF f Hf eq_refl) as (s & u & h & s' & h' & -> & -> & _ & _ & K). cbn. auto.
        -- injection E as -> -> ->. eapply L1; eauto.
      * intros NI. rewrite L2; [apply KEEP|].
        -- intros g Hg Sg Eg. apply (NI g Hg Sg). now left.
        -- intros g Hg Sg Hi. apply (NI g Hg Sg). now right.
Qed.

(** After success every required field of the receiver is set. *)
Theorem C25_set : forall sc m data v v' f,
  wf_schema sc = true -> up_dec_ok sc -> bytes_ok data = true -> small data -> target sc m v ->
  md_ext (md_of sc m) = [] -> accepts sc m data v v' ->
  In f (md_fields (md_of sc m)) -> is_required f = true -> member v' (f_slot f) <> VNil.
Proof.
  intros sc m data v v' f W U B S T X E Hf R.
  destruct (UnmarshalVT_run sc W U m data v v' B S T E) as (cs & _ & Rn & HA).
  apply (proj1 (run_frame sc m cs v v' W X Rn T) f Hf R). left.
  apply (marksn_all sc W m (map fst cs)); auto. unfold marks in HA. unfold marksn.
  rewrite <- HA. f_equal. clear. generalize (has_init (md_of sc m)). induction cs as [|c cs IH]; intros h; cbn; auto.
Qed.
Print Assumptions C25_set.
(** More than 64 required fields: numbers 1 to 70. *)
Definition req70 : mdesc := mkM
  (map (fun i => mkF (Z.of_nat i + 1) i (TField LRequired KUint32)) (seq 0 70)) 70 true [] false false.
Definition req_sc : schema := mkS [req70] no_up.
Definition req_in (skip : Z) : list Z :=
  concat (map (fun i => let n := Z.of_nat i + 1 in if n =? skip then [] else tag n 0 ++ [1]) (seq 0 70)).
Example C25_nonvacuous :
  wf_schema req_sc = true /\ up_dec_ok req_sc /\
  (exists v, accepts req_sc 0 (req_in 0) (new_msg req70) v) /\
  is_error (UnmarshalVT req_sc 0 (req_in 66) (new_msg req70)) /\
  is_error (UnmarshalVT req_sc 0 (req_in 2) (new_msg req70)).
Proof.
  split; [vm_compute; reflexivity|]. split; [split; discriminate|].
  split; [eexists; vm_compute; reflexivity|]. split; do 2 eexists; vm_compute; reflexivity.
Qed.

(** The unrestricted claim is false: in a packed field whose last element runs past
    the declared length, bytes of the next record are read as a tag. *)
Definition pk_md : mdesc := mkM
  [mkF 1 0 (TField LRequired KInt32); mkF 2 1 (TField (LRepeated true) KFixed32)] 2 true [] false false.
Definition pk_sc : schema := mkS [pk_md] no_up.
Theorem C25_refuted : exists sc m (rs : list (Z * list Z)) v v' f,
  wf_schema sc = true /\ up_dec_ok sc /\ target sc m v /\
  Forall (fun nc => exists wt, record true (fst nc) wt (snd nc)) rs /\
  In f (md_fields (md_of sc m)) /\ is_required f = true /\ ~ In (f_num f) (map fst rs) /\
  accepts sc m (concat (map snd rs)) v v'.
Proof.
  exists pk_sc, 0%nat, [(2, [18; 2; 0; 0]); (3, [26; 2; 8; 1])], (new_msg pk_md),
    (VMsg [VPtr (VInt 1); VList [VInt 35258368]] [] []), (mkF 1 0 (TField LRequired KInt32)).
  split; [reflexivity|]. split; [split; discriminate|]. split; [now apply (target_new pk_sc)|].
  split; [|split; [now left|split; [reflexivity|split; [cbn; lia|vm_compute; reflexivity]]]].
  repeat constructor; exists 2.
  - apply (rec_len true 2 [18] [2] [0; 0]); [tagged|len].
  - apply (rec_len true 3 [26] [2] [8; 1]); [tagged|len].
Qed.
Print Assumptions C25_refuted.

(** * C26 *)
(** Of the pieces of the input that belong to members of one oneof, the last one
    decides which member is set; without any the oneof is left alone. *)
Theorem C26_last_wins : forall sc m data v v',
  wf_schema sc = true -> up_dec_ok sc -> bytes_ok data = true -> small data -> target sc m v ->
  md_ext (md_of sc m) = [] -> accepts sc m data v v' ->
  exists cs : list (Z * list Z),
    data = concat (map snd cs) /\ Forall (fun nc => starts (snd nc) (fst nc)) cs /\
    forall f, In f (md_fields (md_of sc m)) -> is_oneof f = true ->
      (forall cs1 c cs2, cs = cs1 ++ (f_num f, c) :: cs2 ->
         (forall g, In g (md_fields (md_of sc m)) -> f_slot g = f_slot f -> ~ In (f_num g) (map fst cs2)) ->
         exists x, member v' (f_slot f) = VOneof (f_num f) x) /\
      ((forall g, In g (md_fields (md_of sc m)) -> f_slot g = f_slot f -> ~ In (f_num g) (map fst cs)) ->
         member v' (f_slot f) = member v (f_slot f)).
Proof.
  intros sc m data v v' W U B S T X E.
  destruct (UnmarshalVT_run sc W U m data v v' B S T E) as (cs & -> & Rn & _).
  exists cs. split; [reflexivity|]. split.
  - clear -Rn. induction Rn as [|num c cs v v1 v' C R IH]; constructor; auto. destruct C; assumption.
  - exact (proj2 (run_frame sc m cs v v' W X Rn T)).
Qed.
Print Assumptions C26_last_wins.

(** Records of the same message-typed member merge (any records of other fields
    may come in between); after another member the message starts afresh. *)
Theorem C26_merge : forall sc m f m' a b c t1 l1 q1 t2 l2 q2 v v0 v1 nums nums1 s u h s1 u1 h1 x1 x2,
  wf_schema sc = true -> up_dec_ok sc -> target sc m v ->
  bytes_ok (a ++ (t1 ++ l1 ++ q1) ++ b ++ (t2 ++ l2 ++ q2) ++ c) = true ->
  small (a ++ (t1 ++ l1 ++ q1) ++ b ++ (t2 ++ l2 ++ q2) ++ c) ->
  no_required sc m ->
  In f (md_fields (md_of sc m)) -> f_ty f = TField LOneof (KMessage m') ->
  dec_fields sc m a v (VMsg s u h) nums ->
  is_tag t1 (f_num f) 2 -> is_len l1 (zlen q1) ->
  (forall y, slot s (f_slot f) <> VOneof (f_num f) y) ->
  decodes sc m' q1 (new_msg (md_of sc m')) x1 ->
  dec_fields sc m b (VMsg (put s (f_slot f) (VOneof (f_num f) x1)) u h) (VMsg s1 u1 h1) nums1 ->
  slot s1 (f_slot f) = VOneof (f_num f) x1 ->
  is_tag t2 (f_num f) 2 -> is_len l2 (zlen q2) ->
  decodes sc m' q2 x1 x2 ->
  v0 = VMsg (put s1 (f_slot f) (VOneof (f_num f) x2)) u1 h1 ->
  dec_fields sc m c v0 v1 [] \/ c = [] /\ v1 = v0 ->
  md_foreign (md_of sc m) = false ->
  accepts sc m (a ++ (t1 ++ l1 ++ q1) ++ b ++ (t2 ++ l2 ++ q2) ++ c) v v1.
Proof.
  intros sc m f m' a b c t1 l1 q1 t2 l2 q2 v v0 v1 nums nums1 s u h s1 u1 h1 x1 x2 W U T B S NR Hf Ty Da Ht1 Hl1 Ns D1 Db Es Ht2 Hl2 D2 -> Dc FN.
  assert (dec_fields sc m c (VMsg (put s1 (f_slot f) (VOneof (f_num f) x2)) u1 h1) v1 []) as Dc' by (destruct Dc as [?|[-> ->]]; [assumption|constructor]).
  apply C20_decodes; auto.
  assert (forall m p q v1 v2 v3 n1 n2, dec_fields sc m p v1 v2 n1 -> dec_fields sc m q v2 v3 n2 -> dec_fields sc m (p ++ q) v1 v3 (n1 ++ n2)) as APP.
  { intros m0 p q va vb vc n1 n2 H. revert vc n2. induction H; intros; cbn; [assumption|]. rewrite <- app_assoc. econstructor; eauto. }
  eapply dec_own; [assumption| |intros g Hg R; rewrite (NR g Hg) in R; discriminate].
  eapply APP; [eassumption|]. eapply df_cons.
  { apply (dr_oneof sc m f (KMessage m') t1 (l1 ++ q1) x1); auto. apply dv_msg; [assumption|].
    unfold merge_oneof. destruct (slot s (f_slot f)) as [| | | | | | |n y| | |] eqn:E; try exact D1.
    destruct (n =? f_num f) eqn:En; [|exact D1]. apply Z.eqb_eq in En as ->. now destruct (Ns y). }
  eapply APP; [eassumption|]. eapply df_cons; [|eassumption].
  apply (dr_oneof sc m f (KMessage m') t2 (l2 ++ q2) x2); auto. apply dv_msg; [assumption|].
  unfold merge_oneof. rewrite Es, Z.eqb_refl. exact D2.
Qed.
Print Assumptions C26_merge.
Example C26_nonvacuous :
  UnmarshalVT ex_sc 0 [58; 2; 8; 3; 50; 1; 120] (new_msg ex_m0)
    = Ok (VMsg [VInt 0; VNil; VNil; VNil; VNil; VOneof 6 (VStr [120]); VInt 0; VNil; VNil; VNil] [] []) /\
  UnmarshalVT ex_sc 0 [58; 2; 8; 3; 58; 5; 18; 1; 7; 8; 4] (new_msg ex_m0)
    = Ok (VMsg [VInt 0; VNil; VNil; VNil; VNil; VOneof 7 (VMsg [VPtr (VInt 4); VBytes [7]] [] []); VInt 0; VNil; VNil; VNil] [] []).
Proof. split; vm_compute; reflexivity. Qed.

(** * C27 is false: input with a record of a group field is never accepted. *)
Theorem C27_group_rejected : forall sc m p t f lbl m' rest v v1 nums,
  wf_schema sc = true -> up_dec_ok sc -> target sc m v ->
  bytes_ok (p ++ t ++ rest) = true -> small (p ++ t ++ rest) ->
  dec_fields sc m p v v1 nums ->
  In f (md_fields (md_of sc m)) -> f_ty f = TField lbl (KGroup m') -> is_tag t (f_num f) 3 ->
  is_error (UnmarshalVT sc m (p ++ t ++ rest) v).
Proof.
  intros sc m p t f lbl m' rest v v1 nums W U T B S D Hf Ty Ht.
  assert (exists e st, um_step sc (fun _ => um_msg sc (length (p ++ t ++ rest))) (safe_env sc) m (p ++ t ++ rest) (zlen p) v1
    (marksn sc m nums (has_init (md_of sc m))) = Err e st) as (e & st & E).
  2:{ exists e, st. eapply step_err; eauto. apply app_ne. eapply is_tag_ne; eauto. }
  unfold um_step. rewrite (tag_read t _ _ p rest Ht). cbn [lift rbind].
  rewrite (tag_wt _ _ _ Ht), (tag_num _ _ _ Ht). change (3 =? 4) with false. cbv iota zeta.
  pose proof (wf_num sc m f W Hf) as Hn. rewrite num_small by lia.
  replace (f_num f <=? 0) with false by lia. rewrite (find_field_in sc m f W Hf).
  unfold um_field. rewrite Ty, (tag_wt _ _ _ Ht). change (3 =? ProtoWireType (KGroup m')) with true. cbv iota.
  destruct (group_loop_err sc f m' (u64 (vval t)) (zlen p + zlen t) v1 (tag_wt _ _ _ Ht) (Datatypes.S (length (p ++ t ++ rest))) (p ++ t ++ rest) (zlen p + zlen t) S B)
    with (rc := fun _ : Z => um_msg sc (length (p ++ t ++ rest))) as (e & E).
  { pose proof (zlen_nonneg p). pose proof (zlen_nonneg t). lia. }
  { pose proof (zlen_nonneg p). pose proof (zlen_nonneg t). unfold zlen. lia. } { lia. }
  destruct (packable lbl (KGroup m')); unfold fieldItem; cbn [classify]; rewrite E; do 2 eexists; reflexivity.
Qed.
Print Assumptions C27_group_rejected.

(** message M { optional group G = 1 { optional int32 a = 2; } } *)
Definition grp_sc : schema := mkS
  [ mkM [mkF 1 0 (TField LOptional (KGroup 1))] 1 true [] false false;
    mkM [mkF 2 0 (TField LOptional KInt32)] 1 true [] false false ] no_up.
Definition grp_v : val := VMsg [VMsg [VPtr (VInt 5)] [] []] [] [].
Theorem C27_refuted : exists sc m v bs,
  wf_schema sc = true /\ up_dec_ok sc /\ wt_msg sc m v /\
  MarshalVT sc false m v = Ok (Some bs) /\ is_error (UnmarshalVT sc m bs (new_msg (md_of sc m))).
Proof.
  exists grp_sc, 0%nat, grp_v, [11; 16; 5; 12]. split; [reflexivity|]. split; [split; discriminate|].
  split; [now apply (check_ok grp_sc 3)|]. split; [vm_compute; reflexivity|]. do 2 eexists. vm_compute. reflexivity.
Qed.
Print Assumptions C27_refuted.

(** * C28 is false: fields decoded before an extension record are lost. *)
Definition ext_up : upstream :=
  mkUp (fun _ _ => []) (fun _ _ => true) (fun _ _ => 0) (fun _ _ => None) (fun _ _ _ => false)
       (fun _ v => v) (fun _ _ => Some (VMsg [VNil] [] [])).
(** message M { required int32 a = 1; extensions 100 to 199; }; upstream decodes
    the extension into the reset message. *)
Definition ext_sc : schema := mkS [mkM [mkF 1 0 (TField LRequired KInt32)] 1 true [(100, 200)] false false] ext_up.
Theorem C28_refuted : exists sc m a b v v1 v2 f,
  wf_schema sc = true /\ target sc m v /\
  accepts sc m a v v1 /\ accepts sc m (a ++ b) v v2 /\
  record true 100 0 b /\ ~ declared sc m 100 /\ In (100, 200) (md_ext (md_of sc m)) /\
  In f (md_fields (md_of sc m)) /\ is_required f = true /\
  member v1 (f_slot f) = VPtr (VInt 5) /\ member v2 (f_slot f) = VNil.
Proof.
  exists ext_sc, 0%nat, [8; 5], [160; 6; 1], (VMsg [VNil] [] []), (VMsg [VPtr (VInt 5)] [] []), (VMsg [VNil] [] []), (mkF 1 0 (TField LRequired KInt32)).
  split; [reflexivity|]. split; [apply (target_new ext_sc eq_refl 0)|]. split; [vm_compute; reflexivity|]. split; [vm_compute; reflexivity|].
  split. { apply (rec_varint true 100 [160; 6] [1]); [tagged|reflexivity|vm_compute; congruence]. }
  split. { intros (f & [<-|[]] & E). discriminate. }
  split; [now left|]. split; [now left|]. split; [reflexivity|]. split; reflexivity.
Qed.
Print Assumptions C28_refuted.

(** * C29 *)
(** What is rejected: a record of a declared field with a wire type the field
    cannot have, a field number that is zero (or negative as an int32), an
    end-group tag outside of a group. *)
Theorem C29_bad_tag_partial : forall sc m p t num wt rest v v1 nums,
  wf_schema sc = true -> up_dec_ok sc -> target sc m v ->
  bytes_ok (p ++ t ++ rest) = true -> small (p ++ t ++ rest) ->
  dec_fields sc m p v v1 nums -> is_tag t num wt ->
  wt = 4 \/ s32 num <= 0 \/
  (exists f lbl k, In f (md_fields (md_of sc m)) /\ f_num f = num /\ f_ty f = TField lbl k /\ wt <> wire_of k /\
     (wt = 2 -> forall pk, lbl <> LRepeated pk)) \/
  (exists f kk vk, In f (md_fields (md_of sc m)) /\ f_num f = num /\ f_ty f = TMap kk vk /\ wt <> 2) ->
  exists e, UnmarshalVT sc m (p ++ t ++ rest) v = Err e v1.
Proof.
  intros sc m p t num wt rest v v1 nums W U T B S D Ht H.
  assert (exists e, um_step sc (fun _ => um_msg sc (length (p ++ t ++ rest))) (safe_env sc) m (p ++ t ++ rest) (zlen p) v1
    (marksn sc m nums (has_init (md_of sc m))) = Err e v1) as (e & E).
  2:{ exists e. eapply step_err; eauto. apply app_ne. eapply is_tag_ne; eauto. }
  unfold um_step. rewrite (tag_read t _ _ p rest Ht). cbn [lift rbind].
  rewrite (tag_wt _ _ _ Ht), (tag_num _ _ _ Ht).
  destruct (wt =? 4) eqn:E4; [eexists; reflexivity|]. destruct (s32 num <=? 0) eqn:E0; [eexists; reflexivity|].
  destruct H as [H|[H|H]]; [lia|lia|].
  destruct H as [(f & lbl & k & Hf & <- & Ty & Hw & Hp)|(f & kk & vk & Hf & <- & Ty & Hw)];
    pose proof (wf_num sc m f W Hf) as Hn; rewrite num_small by lia; rewrite (find_field_in sc m f W Hf);
    unfold um_field; rewrite Ty, (tag_wt _ _ _ Ht).
  - rewrite wire_eq. replace (wt =? wire_of k) with false by lia.
    destruct (packable lbl k) eqn:P; [|eexists; reflexivity].
    destruct (wt =? 2) eqn:E2; [|eexists; reflexivity]. apply Z.eqb_eq in E2.
    unfold packable in P. destruct lbl as [| | |pk|]; try discriminate. now destruct (Hp E2 pk).
  - replace (wt =? 2) with false by lia. eexists. reflexivity.
Qed.
Print Assumptions C29_bad_tag_partial.
Example C29_nonvacuous :
  is_tag [10] 1 2 /\ is_tag [4] 0 4 /\ is_tag [3] 0 3 /\
  is_error (UnmarshalVT ex_sc 0 [10; 0] (new_msg ex_m0)) /\ is_error (UnmarshalVT ex_sc 0 [3; 4] (new_msg ex_m0)).
Proof. split; [tagged|]. split; [tagged|]. split; [tagged|]. split; do 2 eexists; vm_compute; reflexivity. Qed.

(** What is not.  Messages: packed fixed32 list (1), map<int32,int32> (2), int32 (3). *)
Definition mal_md : mdesc := mkM
  [mkF 1 0 (TField (LRepeated true) KFixed32); mkF 2 1 (TMap KInt32 KInt32); mkF 3 2 (TField LImplicit KInt32)] 3 true [] false false.
Definition mal_sc : schema := mkS [mal_md] no_up.
Definition mal_new : val := VMsg [VNil; VNil; VInt 0] [] [].
Lemma mal_ok : wf_schema mal_sc = true /\ up_dec_ok mal_sc /\ target mal_sc 0 mal_new.
Proof. split; [reflexivity|]. split; [split; discriminate|]. exact (target_new mal_sc eq_refl 0). Qed.

(** (a) A packed fixed32 payload whose length is no multiple of 4: the last element
    is completed from the bytes that follow. *)
Theorem C29_packed_overrun_refuted : exists sc m f t l payload rest v v',
  wf_schema sc = true /\ up_dec_ok sc /\ target sc m v /\
  In f (md_fields (md_of sc m)) /\ f_ty f = TField (LRepeated true) KFixed32 /\
  is_tag t (f_num f) 2 /\ is_len l (zlen payload) /\ zlen payload mod 4 <> 0 /\
  accepts sc m (t ++ l ++ payload ++ rest) v v'.
Proof.
  destruct mal_ok as (A & B & C).
  exists mal_sc, 0%nat, (mkF 1 0 (TField (LRepeated true) KFixed32)), [10], [2], [1; 0], [0; 0], mal_new, (VMsg [VList [VInt 1]; VNil; VInt 0] [] []).
  do 3 (split; [assumption|]). split; [now left|]. split; [reflexivity|]. split; [tagged|]. split; [len|].
  split; [discriminate|vm_compute; reflexivity].
Qed.
Print Assumptions C29_packed_overrun_refuted.
(** (b) A map entry that ends right after the tag of its value: the value is read
    from the record that follows the entry, which is then decoded as well. *)
Theorem C29_map_overrun_refuted : exists sc m f t l key vt rest v v' z,
  wf_schema sc = true /\ up_dec_ok sc /\ target sc m v /\
  In f (md_fields (md_of sc m)) /\ f_ty f = TMap KInt32 KInt32 /\
  is_tag t (f_num f) 2 /\ is_len l (zlen (key ++ vt)) /\ record true 1 0 key /\ is_tag vt 2 0 /\
  accepts sc m (t ++ l ++ (key ++ vt) ++ rest) v v' /\
  member v' (f_slot f) = VMap [(VInt 1, VInt z)] /\ [z] = firstn 1 rest.
Proof.
  destruct mal_ok as (A & B & C).
  exists mal_sc, 0%nat, (mkF 2 1 (TMap KInt32 KInt32)), [18], [3], [8; 1], [16], [24; 5], mal_new,
    (VMsg [VNil; VMap [(VInt 1, VInt 24)]; VInt 5] [] []), 24.
  do 3 (split; [assumption|]). split; [right; now left|]. split; [reflexivity|]. split; [tagged|]. split; [len|].
  split; [apply (rec_varint true 1 [8] [1]); [tagged|reflexivity|vm_compute; congruence]|].
  split; [tagged|]. split; [vm_compute; reflexivity|]. split; reflexivity.
Qed.
Print Assumptions C29_map_overrun_refuted.
(** (c) A field number beyond 2^29 - 1, taken for the declared field 3. *)
Theorem C29_field_number_refuted : exists sc m t num payload v v',
  wf_schema sc = true /\ up_dec_ok sc /\ target sc m v /\
  is_tag t num 0 /\ 536870911 < num /\ is_varint payload = true /\
  accepts sc m (t ++ payload) v v' /\ v' <> v /\ unknown_of v' = unknown_of v.
Proof.
  destruct mal_ok as (A & B & C).
  exists mal_sc, 0%nat, [152; 128; 128; 128; 128; 1], 4294967299, [7], mal_new, (VMsg [VNil; VNil; VInt 7] [] []).
  do 3 (split; [assumption|]). split; [tagged|]. split; [reflexivity|]. split; [reflexivity|].
  split; [vm_compute; reflexivity|]. split; [discriminate|reflexivity].
Qed.
Print Assumptions C29_field_number_refuted.
(** (d) A varint of more than 64 bits. *)
Theorem C29_varint_overflow_refuted : exists sc m t payload v v',
  wf_schema sc = true /\ up_dec_ok sc /\ target sc m v /\
  is_tag t 3 0 /\ is_varint payload = true /\ 18446744073709551616 <= vval payload /\
  accepts sc m (t ++ payload) v v'.
Proof.
  destruct mal_ok as (A & B & C).
  exists mal_sc, 0%nat, [24], [255; 255; 255; 255; 255; 255; 255; 255; 255; 127], mal_new, (VMsg [VNil; VNil; VInt (-1)] [] []).
  do 3 (split; [assumption|]). split; [tagged|]. split; [reflexivity|]. split; [vm_compute; congruence|vm_compute; reflexivity].
Qed.
Print Assumptions C29_varint_overflow_refuted.
(** (e) A map key announced as length-delimited: its length is taken for the key. *)
Theorem C29_entry_wire_type_refuted : exists sc m f t l kt kb v v',
  wf_schema sc = true /\ up_dec_ok sc /\ target sc m v /\
  In f (md_fields (md_of sc m)) /\ f_ty f = TMap KInt32 KInt32 /\
  is_tag t (f_num f) 2 /\ is_len l (zlen (kt ++ kb)) /\ is_tag kt 1 2 /\
  accepts sc m (t ++ l ++ kt ++ kb) v v'.
Proof.
  destruct mal_ok as (A & B & C).
  exists mal_sc, 0%nat, (mkF 2 1 (TMap KInt32 KInt32)), [18], [4], [10], [1; 16; 5], mal_new,
    (VMsg [VNil; VMap [(VInt 1, VInt 5)]; VInt 0] [] []).
  do 3 (split; [assumption|]). split; [right; now left|]. split; [reflexivity|]. split; [tagged|]. split; [len|].
  split; [tagged|vm_compute; reflexivity].
Qed.
Print Assumptions C29_entry_wire_type_refuted.

(** * C20, the part that fails: a map entry that gives its value twice. *)
(** The two varints are or-ed together instead of the last one winning (the
    specification's [dec_entry] has each at most once). *)
Theorem C20_entry_value_twice_refuted : exists sc m f t l key v1 v2 v v',
  wf_schema sc = true /\ up_dec_ok sc /\ target sc m v /\
  In f (md_fields (md_of sc m)) /\ f_ty f = TMap KInt32 KInt32 /\
  is_tag t (f_num f) 2 /\ is_len l (zlen (key ++ v1 ++ v2)) /\
  key = tag 1 0 ++ [1] /\ v1 = tag 2 0 ++ [5] /\ v2 = tag 2 0 ++ [2] /\
  accepts sc m (t ++ l ++ key ++ v1 ++ v2) v v' /\
  member v' (f_slot f) = VMap [(VInt 1, VInt 7)].
Proof.
  destruct mal_ok as (A & B & C).
  exists mal_sc, 0%nat, (mkF 2 1 (TMap KInt32 KInt32)), [18], [6], [8; 1], [16; 5], [16; 2], mal_new,
    (VMsg [VNil; VMap [(VInt 1, VInt 7)]; VInt 0] [] []).
  do 3 (split; [assumption|]). split; [right; now left|]. split; [reflexivity|]. split; [tagged|]. split; [len|].
  do 3 (split; [reflexivity|]). split; [vm_compute; reflexivity|reflexivity].
Qed.
Print Assumptions C20_entry_value_twice_refuted.

(** * C47 is false: a second record replaces the sub-message. *)
Theorem C47_reset : forall sc m f m' t l q x s u h,
  wf_schema sc = true -> up_dec_ok sc -> target sc m (VMsg s u h) ->
  bytes_ok (t ++ l ++ q) = true -> small (t ++ l ++ q) -> no_required sc m ->
  In f (md_fields (md_of sc m)) -> f_ty f = TField LOptional (KMessage m') -> md_foreign (md_of sc m') = true ->
  is_tag t (f_num f) 2 -> is_len l (zlen q) -> up_dec (sc_up sc) m' q = Some x ->
  accepts sc m (t ++ l ++ q) (VMsg s u h) (VMsg (put s (f_slot f) x) u h).
Proof.
  intros sc m f m' t l q x s u h W U T B S NR Hf Ty F Ht Hl Ux.
  assert (Precord sc m (f_num f) (t ++ l ++ q) (VMsg s u h) (VMsg (put s (f_slot f) x) u h)) as P.
  { apply (step_elem sc W m f LOptional (KMessage m') t (l ++ q) x s u h); auto.
    - right. right. right. exists m', l, q. repeat split; try reflexivity; try apply Hl.
      intros To _ _ n i _. unfold decodeMessage. rewrite F, Ux.
      destruct (mergeslot _ _ _ _ _); try reflexivity. destruct To as [Wn _]. inversion Wn.
    - intros _ (pk & E). discriminate. }
  destruct (P T (length (t ++ l ++ q)) [] [] (has_init (md_of sc m))) as [Ne St]; rewrite ?app_nil_r; auto.
  cbn [app] in St. rewrite app_nil_r in St. change (zlen (@nil Z)) with 0 in St. cbn [Z.add] in St.
  unfold accepts, UnmarshalVT. cbn [um_msg]. unfold um_body. cbn [um_loop].
  replace (0 <? zlen (t ++ l ++ q)) with true
    by (destruct (t ++ l ++ q); [contradiction|]; rewrite zlen_cons; pose proof (zlen_nonneg l0); symmetry; apply Z.ltb_lt; lia).
  rewrite St. cbn [rbind]. destruct (length (t ++ l ++ q)) eqn:El; [destruct (t ++ l ++ q); [contradiction|discriminate]|].
  cbn [um_loop]. rewrite Z.ltb_irrefl. cbn [rbind]. rewrite Z.ltb_irrefl.
  rewrite (has_init_nil sc m NR). unfold has_all.
  replace (filter is_required (md_fields (md_of sc m))) with (@nil fdesc); [reflexivity|].
  clear -NR. unfold no_required in NR. induction (md_fields (md_of sc m)) as [|g fs IH]; [reflexivity|]. cbn. rewrite (NR g) by now left.
  apply IH. intros; apply NR; now right.
Qed.
Print Assumptions C47_reset.
(** Field 20 of [ex_m0], first with an unknown field 2, then with field 1: the
    unknown field is gone, although both records decode to a message with it when
    concatenated. *)
Theorem C47_refuted : exists sc m f m' t l1 q1 l2 q2 v v',
  wf_schema sc = true /\ up_dec_ok sc /\ target sc m v /\
  In f (md_fields (md_of sc m)) /\ f_ty f = TField LOptional (KMessage m') /\ is_tag t (f_num f) 2 /\
  is_len l1 (zlen q1) /\ is_len l2 (zlen q2) /\
  accepts sc m (t ++ l1 ++ q1 ++ t ++ l2 ++ q2) v v' /\
  exists x, up_dec (sc_up sc) m' (q1 ++ q2) = Some x /\ member v' (f_slot f) <> x /\
            up_dec (sc_up sc) m' q2 = Some (member v' (f_slot f)).
Proof.
  exists ex_sc, 0%nat, (mkF 20 8 (TField LOptional (KMessage 2))), 2%nat, [162; 1], [2], [16; 1], [2], [8; 77], (new_msg ex_m0),
    (VMsg [VInt 0; VNil; VNil; VNil; VNil; VNil; VInt 0; VNil; VMsg [VInt 77] [] []; VNil] [] []).
  split; [reflexivity|]. split; [apply ex_dec_ok|]. split; [now apply (target_new ex_sc eq_refl 0)|].
  split; [cbn; tauto|]. split; [reflexivity|]. split; [tagged|]. split; [len|]. split; [len|].
  split; [vm_compute; reflexivity|].
  exists (VMsg [VInt 77] [16; 1] []). split; [vm_compute; reflexivity|]. split; [discriminate|vm_compute; reflexivity].
Qed.
Print Assumptions C47_refuted.

(** * C48 is false: no bound on the nesting depth. *)
Inductive nested : nat -> val -> Prop :=
| nested_0 v : nested 0 v
| nested_S d v x : member v 3 = VList [x] -> nested d x -> nested (Datatypes.S d) v.
Fixpoint deep (d : nat) : list Z :=
  match d with O => [] | Datatypes.S d => [34] ++ varint (zlen (deep d)) ++ deep d end.
Fixpoint deep_v (d : nat) : val :=
  match d with
  | O => new_msg ex_m0
  | Datatypes.S d => VMsg [VInt 0; VNil; VNil; VList [deep_v d]; VNil; VNil; VInt 0; VNil; VNil; VNil] [] []
  end.
Lemma deep_len d : 12 * Z.of_nat d < 9223372036854775800 -> 0 <= zlen (deep d) <= 12 * Z.of_nat d.
Proof.
  induction d as [|d IH]; intros H; [cbn; lia|]. cbn [deep]. rewrite !zlen_app. change (zlen [34]) with 1.
  pose proof (varint_len64 (zlen (deep d)) ltac:(lia)). pose proof (zlen_nonneg (varint (zlen (deep d)))). lia.
Qed.
Lemma deep_bytes d : bytes_ok (deep d) = true.
Proof.
  induction d as [|d IH]; [reflexivity|]. cbn [deep]. rewrite !bytes_ok_app, IH, varint_bytes by apply zlen_nonneg. reflexivity.
Qed.
Lemma deep_dec d : 12 * Z.of_nat d < 9223372036854775800 -> decodes ex_sc 0 (deep d) (new_msg ex_m0) (deep_v d).
Proof.
  induction d as [|d IH]; intros H.
  - eapply dec_own; [reflexivity|apply df_nil|]. intros f Hf R. repeat (destruct Hf as [<-|Hf]; [discriminate R|]); destruct Hf.
  - pose proof (deep_len d ltac:(lia)) as L.
    eapply dec_own; [reflexivity| |intros f Hf R; repeat (destruct Hf as [<-|Hf]; [discriminate R|]); destruct Hf].
    cbn [deep]. rewrite <- (app_nil_r ([34] ++ _)). eapply df_cons; [|apply df_nil].
    apply (dr_repeated ex_sc 0 (mkF 4 3 (TField (LRepeated false) (KMessage 0))) false (KMessage 0) [34] (varint (zlen (deep d)) ++ deep d) (deep_v d)
      (zero_slots ex_m0) [] []).
    + cbn; tauto.
    + reflexivity.
    + tagged.
    + apply dv_msg; [|apply IH; lia]. split; [apply varint_is; lia|]. split; [apply varint_len64; lia|].
      rewrite varint_val by lia. apply Z.mod_small. lia.
    + reflexivity.
Qed.
Theorem C48_unbounded_refuted : exists sc m v, wf_schema sc = true /\ up_dec_ok sc /\ target sc m v /\
  forall d, 12 * Z.of_nat d < 9223372036854775800 ->
  exists bs v', zlen bs <= 12 * Z.of_nat d /\ accepts sc m bs v v' /\ nested d v'.
Proof.
  exists ex_sc, 0%nat, (new_msg ex_m0). split; [reflexivity|]. split; [apply ex_dec_ok|].
  split; [exact (target_new ex_sc eq_refl 0)|]. intros d H. exists (deep d), (deep_v d).
  pose proof (deep_len d H). split; [lia|]. split.
  - apply C20_decodes; [reflexivity|apply ex_dec_ok|apply deep_bytes|unfold small; lia|exact (target_new ex_sc eq_refl 0)|reflexivity|now apply deep_dec].
  - clear. induction d as [|d IH]; [constructor|]. econstructor; [reflexivity|assumption].
Qed.
Print Assumptions C48_unbounded_refuted.
