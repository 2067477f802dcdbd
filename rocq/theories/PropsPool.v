(** Properties C36, C37 and C49: message pools.

    [reachable sc s] (PoolSpec.v): the pools and the live messages of [s] arise from
    an empty start by any sequence of FromVTPool, UnmarshalVT, CloneVT, ResetVT,
    ReturnToVTPool calls, of user edits that leave no junk in spare capacity
    ([tidy]), and of objects lost by sync.Pool.  [drawn sc p m v]: FromVTPool may
    return [v] for type [m] when the pools hold [p].  Messages returned to the pool
    are assumed not to be used afterwards. *)
From Coq Require Import ZArith List Bool Lia Permutation.
From Verif Require Import Base BaseFacts Schema Value Helpers Size Marshal Unmarshal Equal Clone Pool WireSpec Typing RecordSpec MsgSpec DecodeSpec ContentSpec EqualSpec CloneSpec PoolSpec
  OrderFacts MarshalFacts TargetFacts SameFacts EqualRel EqualFacts EqualSame RunRel RunFacts PoolFacts PoolRun PoolTotal Ex PropsUnmarshal PropsEqual PropsClone.
Import ListNotations.
Open Scope Z_scope.

(** Example schemas.  Node (pooled): repeated Leaf q = 1; string s = 2; bytes b = 3;
    Leaf l = 4; repeated Plain p = 5.  Leaf (pooled): int32 i = 1; repeated int32 r = 2.
    Plain (not pooled): string s = 1. *)
Definition pl_sc : schema := mkS
  [ mkM [ mkF 1 0 (TField (LRepeated false) (KMessage 1)); mkF 2 1 (TField LImplicit KString);
          mkF 3 2 (TField LImplicit KBytes); mkF 4 3 (TField LOptional (KMessage 1));
          mkF 5 4 (TField (LRepeated false) (KMessage 2)) ] 5 true [] true false;
    mkM [ mkF 1 0 (TField LImplicit KInt32); mkF 2 1 (TField (LRepeated true) KInt32) ] 2 true [] true false;
    mkM [ mkF 1 0 (TField LImplicit KString) ] 1 true [] false false ] ex_up.
(** Blob (pooled): optional bytes b = 1. *)
Definition ob_sc : schema := mkS [ mkM [ mkF 1 0 (TField LOptional KBytes) ] 1 true [] true false ] ex_up.

Lemma pl_wf : wf_schema pl_sc = true. Proof. reflexivity. Qed.
Lemma pl_local : pools_local pl_sc.
Proof. intros [|[|[|[|m]]]]; cbn; auto; discriminate. Qed.
Lemma pl_no_opt : no_optional_bytes pl_sc.
Proof. intros [|[|[|[|m]]]] f l P Hf T; cbn in *; try discriminate; repeat (destruct Hf as [<-|Hf]; [cbn in T; try discriminate; injection T as <-; split; discriminate|]); destruct Hf. Qed.

Lemma emptied_blank sc m v : wf_schema sc = true -> no_optional_bytes sc -> md_pool (md_of sc m) = true -> emptied sc m v -> blank sc m v.
Proof.
  intros W N P (s & h & -> & L & H). assert (forall f, In f (md_fields (md_of sc m)) -> holds_nothing false f (slot s (f_slot f))) as H0.
  { intros f Hf. specialize (H f Hf). unfold holds_nothing in *. destruct (f_ty f) as [[| | |p|] k|kk vk] eqn:T; auto.
    - destruct H as [H|(_ & B & _)]; auto. destruct k; try discriminate. destruct (N m f _ P Hf T) as [? _]. congruence.
    - destruct H as [H|(_ & B & _)]; auto. destruct k; try discriminate. destruct (N m f _ P Hf T) as [_ ?]. congruence. }
  split.
  - constructor; auto. intros f Hf. specialize (H0 f Hf). pose proof (wf_ty sc m f W Hf) as Wt. unfold holds_nothing in H0.
    destruct (f_ty f) as [[| | |p|] k|kk vk] eqn:T.
    + eapply wt_implicit; eauto. destruct k; cbn [is_num is_bytes] in H0; try (rewrite H0; apply wt_num; reflexivity); try (cbn in Wt; rewrite andb_false_r in Wt; discriminate).
      * rewrite H0. now apply wt_str.
      * destruct H0 as [-> | ->]; [apply wt_nilbytes|now apply wt_bytes].
    + destruct H0 as [->|[? _]]; [|discriminate]. apply wt_unset. now rewrite T.
    + destruct H0 as [->|[? _]]; [|discriminate]. apply wt_unset. now rewrite T.
    + destruct H0 as [->| ->]; [apply wt_unset; now rewrite T|]. eapply wt_list; eauto. intros x [].
    + rewrite H0. apply wt_unset. now rewrite T.
    + destruct H0 as [->| ->]; [apply wt_unset; now rewrite T|]. eapply wt_map; eauto; [intros x []|intros x []|constructor].
  - constructor; auto. intros f Hf. rewrite (zero_slots_of sc W m f Hf). specialize (H0 f Hf). pose proof (wf_ty sc m f W Hf) as Wt. unfold holds_nothing in H0.
    destruct (f_ty f) as [[| | |p|] k|kk vk] eqn:T; cbn [zero_of].
    + destruct (is_num k) eqn:Nk.
      * rewrite H0. replace (match classify k with CByt => VNil | CStr => VStr [] | CMsg _ | CGrp _ => VNil | _ => VInt 0 end) with (VInt 0) by (destruct k; try discriminate; reflexivity).
        eapply sf_number; eauto. reflexivity.
      * eapply sf_implicit; eauto. destruct k; try discriminate; try (cbn in Wt; rewrite andb_false_r in Wt; discriminate); cbn [is_bytes classify] in *.
        -- rewrite H0. apply sv_text; auto.
        -- destruct H0 as [->| ->]; apply sv_text; auto.
    + destruct H0 as [->|[? _]]; [|discriminate]. eapply sf_unset; eauto.
    + destruct H0 as [->|[? _]]; [|discriminate]. eapply sf_unset; eauto.
    + destruct H0 as [->| ->]; eapply sf_list; eauto; constructor.
    + rewrite H0. eapply sf_other; eauto; discriminate.
    + destruct H0 as [->| ->]; eapply sf_map; eauto; constructor.
Qed.

Lemma emptied_size sc m v : wf_schema sc = true -> no_optional_bytes sc -> md_pool (md_of sc m) = true -> emptied sc m v -> SizeVT sc m v = 0.
Proof.
  intros W N P (s & h & -> & L & H). unfold SizeVT. cbn [size_msg size_body].
  assert (forall rec fs, incl fs (md_fields (md_of sc m)) -> forall seen, size_fields sc rec (md_of sc m) s seen fs = 0) as Z.
  { intros rec. induction fs as [|f fs IH]; intros I seen; cbn [size_fields]; [reflexivity|].
    assert (In f (md_fields (md_of sc m))) as Hf by (apply I; now left). assert (incl fs (md_fields (md_of sc m))) as I' by (intros g Hg; apply I; now right).
    specialize (H f Hf). pose proof (wf_ty sc m f W Hf) as Wt. unfold holds_nothing in H. unfold is_oneof, size_field.
    destruct (f_ty f) as [[| | |p|] k|kk vk] eqn:T.
    - rewrite (IH I'). replace (implicit_set k (slot s (f_slot f))) with false; [reflexivity|].
      destruct k; cbn [is_num is_bytes] in H; try (cbn in Wt; rewrite andb_false_r in Wt; discriminate); try (rewrite H; reflexivity). destruct H as [->| ->]; reflexivity.
    - rewrite (IH I'). destruct H as [->|(_ & B & _)]; [reflexivity|]. destruct k; try discriminate. destruct (N m f _ P Hf T) as [? _]. congruence.
    - rewrite (IH I'). destruct H as [->|(_ & B & _)]; [reflexivity|]. destruct k; try discriminate. destruct (N m f _ P Hf T) as [_ ?]. congruence.
    - rewrite (IH I'). destruct H as [->| ->]; destruct p; reflexivity.
    - destruct (existsb _ _); [now apply IH|]. rewrite H, (IH I'). reflexivity.
    - rewrite (IH I'). destruct H as [->| ->]; reflexivity. }
  rewrite Z by apply incl_refl. now destruct (md_keep _).
Qed.

(** * C36 *)
(** Whatever the history, an object in a pool has no content left: every number is
    zero, every string, byte slice, list and map empty, every oneof and every field
    with presence unset (except that a bytes field with presence may hold an empty
    byte slice, see below); the messages left in the spare capacity of its lists
    are emptied as well. *)
Theorem C36_emptied : forall sc s m v,
  wf_schema sc = true -> up_dec_ok sc -> up_compact sc -> up_clone_ok sc -> pools_local sc ->
  reachable sc s -> In (m, v) (in_pool s) ->
  emptied sc m v /\ tidy sc m v.
Proof.
  intros sc s m v W UD UX UC PL R H. destruct (reachable_ok sc W UD UX UC PL s R) as [G _]. rewrite Forall_forall in G. now destruct (G _ H) as (_ & A & B).
Qed.
Print Assumptions C36_emptied.

(** If no pooled message has a bytes field with presence, FromVTPool returns a
    message that cannot be told from a new one. *)
Theorem C36_like_new_partial : forall sc s m v o,
  wf_schema sc = true -> up_dec_ok sc -> up_compact sc -> up_clone_ok sc -> up_eq_ok sc -> pools_local sc -> no_optional_bytes sc ->
  reachable sc s -> md_pool (md_of sc m) = true -> drawn sc (in_pool s) m v ->
  blank sc m v /\ SizeVT sc m v = 0 /\ EqualVT sc o m v (new_msg (md_of sc m)) = true.
Proof.
  intros sc s m v o W UD UX UC UE PL N R P D. pose proof (PL m P) as F.
  assert (emptied sc m v) as E.
  { destruct D as [D| ->]; [exact (proj1 (C36_emptied sc s m v W UD UX UC PL R D))|]. apply rm_emptied; auto. now apply new_rm. }
  pose proof (emptied_blank sc m v W N P E) as B. split; [exact B|]. split; [now apply emptied_size|].
  destruct B as [T B]. assert (wt_msg sc m (new_msg (md_of sc m))) as Tn by now apply target_new.
  rewrite C31_symmetric; auto; [|now right|now right]. apply (proj1 (C32_any sc o m _ _ W UE F Tn T)).
  inversion B as [? s0 u0 h0 s1 u1 h1 HF HU]; subst. destruct E as (s2 & h2 & [= -> -> ->] & L & HN). constructor; [|auto].
  intros f Hf. specialize (HF f Hf). rewrite (zero_slots_of sc W m f Hf) in *. pose proof (wf_ty sc m f W Hf) as Wt.
  specialize (HN f Hf). unfold holds_nothing in HN.
  destruct (f_ty f) as [[| | |p|] k|kk vk] eqn:Tf; cbn [zero_of] in *.
  - destruct (is_num k) eqn:Nk.
    + rewrite HN. replace (match classify k with CByt => VNil | CStr => VStr [] | CMsg _ | CGrp _ => VNil | _ => VInt 0 end) with (VInt 0) by (destruct k; try discriminate; reflexivity).
      eapply sf_number; eauto. assert (~ nan k 0) as NN by (intros X; destruct k; cbn in X; try contradiction; destruct X as [_ X]; now apply X). split; [exact NN|split; [exact NN|now left]].
    + eapply sf_implicit; eauto. destruct k; try discriminate; try (cbn in Wt; rewrite andb_false_r in Wt; discriminate); cbn [is_bytes classify] in *.
      * rewrite HN. apply sv_text; auto.
      * destruct HN as [->| ->]; apply sv_text; auto.
  - destruct HN as [->|(_ & Bk & _)]; [eapply sf_unset; eauto|]. destruct k; try discriminate. destruct (N m f _ P Hf Tf) as [? _]. congruence.
  - destruct HN as [->|(_ & Bk & _)]; [eapply sf_unset; eauto|]. destruct k; try discriminate. destruct (N m f _ P Hf Tf) as [_ ?]. congruence.
  - destruct HN as [->| ->]; eapply sf_list; eauto; constructor.
  - rewrite HN. eapply sf_other; eauto; discriminate.
  - destruct HN as [->| ->]; eapply sf_map; eauto; constructor.
Qed.
Print Assumptions C36_like_new_partial.
(** Cloning with objects from the pools gives a message with the content of the
    original. *)
Theorem C36_clone_partial : forall sc s m v al,
  wf_schema sc = true -> up_dec_ok sc -> up_compact sc -> up_clone_ok sc -> up_eq_ok sc -> pools_local sc -> no_optional_bytes sc ->
  reachable sc s -> md_foreign (md_of sc m) = false -> wt_msg sc m v ->
  (forall path m', md_pool (md_of sc m') = true -> drawn sc (in_pool s) m' (al path m')) ->
  (forall path m', md_pool (md_of sc m') = false -> al path m' = new_msg (md_of sc m')) ->
  wt_msg sc m (CloneVT_from sc al m v) /\
  same_msg sc same_bits same_bits (up_cloned sc) m v (CloneVT_from sc al m v).
Proof.
  intros sc s m v al W UD UX UC UE PL N R F T A1 A2. apply C34_same_content; auto. intros p m'.
  destruct (md_pool (md_of sc m')) eqn:P; [|rewrite A2 by exact P; now apply new_blank].
  exact (proj1 (C36_like_new_partial sc s m' (al p m') (fun _ => false) W UD UX UC UE PL N R P (A1 p m' P))).
Qed.
Print Assumptions C36_clone_partial.
(** The example schemas meet the hypotheses. *)
Lemma md_out sc m : (length (sc_msgs sc) <= m)%nat -> md_of sc m = md_default.
Proof. intros H. unfold md_of. now apply nth_overflow. Qed.
Lemma pl_up : up_dec_ok pl_sc /\ up_compact pl_sc /\ up_clone_ok pl_sc /\ up_eq_ok pl_sc.
Proof.
  split; [|split; [discriminate|split; [split; auto|]]].
  - split; [|discriminate]. intros [|[|[|[|m]]]] bs v F; cbn in F; discriminate.
  - split; try reflexivity; [intros; apply val_eqb_refl| |].
    + intros m x y H. apply val_eqb_eq in H. subst. apply val_eqb_refl.
    + intros m x y z H1 H2. apply val_eqb_eq in H1. apply val_eqb_eq in H2. subst. apply val_eqb_refl.
Qed.
Lemma ob_up : up_dec_ok ob_sc /\ up_compact ob_sc /\ up_clone_ok ob_sc /\ up_eq_ok ob_sc.
Proof.
  split; [|split; [discriminate|split; [split; auto|]]].
  - split; [|discriminate]. intros [|[|m]] bs v F; cbn in F; discriminate.
  - split; try reflexivity; [intros; apply val_eqb_refl| |].
    + intros m x y H. apply val_eqb_eq in H. subst. apply val_eqb_refl.
    + intros m x y z H1 H2. apply val_eqb_eq in H1. apply val_eqb_eq in H2. subst. apply val_eqb_refl.
Qed.
Lemma ob_local : pools_local ob_sc.
Proof. intros [|[|m]]; cbn; auto; discriminate. Qed.

(** A history: take a Node from the pool, unmarshal two Leaf elements, a string, bytes,
    a Leaf and a Plain into it, return it.  The Leaf of field 4 goes to its own pool. *)
Definition pl_data : list Z := [10; 5; 8; 5; 18; 1; 7; 10; 0; 18; 1; 97; 26; 1; 0; 34; 2; 8; 9; 42; 3; 10; 1; 98].
Definition new_al (sc : schema) (path : list Z) (m : nat) : val := new_msg (md_of sc m).
Definition pl_live : val := VMsg
  [ VList [VMsg [VInt 5; VList [VInt 7]] [] []; VMsg [VInt 0; VNil] [] []]; VStr [97]; VBytes [0];
    VMsg [VInt 9; VNil] [] []; VList [VMsg [VStr [98]] [] []] ] [] [].
Definition pl_node : val := VMsg
  [ VList []; VStr []; VBytes []; VNil; VList [] ] []
  [ [VMsg [VInt 0; VList []] [] [[]; []]; VMsg [VInt 0; VNil] [] [[]; []]]; []; []; []; [VMsg [VStr []] [] []] ].
Definition pl_leaf : val := VMsg [VInt 0; VNil] [] [[]; []].
Lemma pl_um : UnmarshalVT_pool pl_sc (new_al pl_sc) 0 pl_data (new_msg (md_of pl_sc 0)) = Ok pl_live.
Proof. vm_compute. reflexivity. Qed.
Lemma pl_ret : ReturnToVTPool pl_sc 0 pl_live = Ok [(1%nat, pl_leaf); (0%nat, pl_node)].
Proof. vm_compute. reflexivity. Qed.
Definition pl_pool : pstate := PState [(1%nat, pl_leaf); (0%nat, pl_node)] [].
Lemma pl_reach : reachable pl_sc pl_pool.
Proof.
  eapply reach_step with (a := PState [] [(0%nat, pl_live)]).
  - eapply reach_step with (a := PState [] [(0%nat, new_msg (md_of pl_sc 0))]).
    + eapply reach_step; [apply reach_start|]. apply ps_get; [reflexivity|]. now right.
    + apply (ps_unmarshal pl_sc [] [] [] 0 (new_msg (md_of pl_sc 0)) (new_al pl_sc) pl_data); [reflexivity|now right|]. left. exact pl_um.
  - exact (ps_return pl_sc [] [] [] 0 pl_live _ eq_refl pl_ret).
Qed.
Example C36_nonvacuous :
  wf_schema pl_sc = true /\ up_dec_ok pl_sc /\ up_compact pl_sc /\ up_clone_ok pl_sc /\ up_eq_ok pl_sc /\ pools_local pl_sc /\ no_optional_bytes pl_sc /\
  reachable pl_sc pl_pool /\ drawn pl_sc (in_pool pl_pool) 0 pl_node /\ pl_node <> new_msg (md_of pl_sc 0).
Proof.
  pose proof pl_up as (A & B & C & D). split; [apply pl_wf|]. do 4 (split; [assumption|]). split; [apply pl_local|]. split; [apply pl_no_opt|].
  split; [apply pl_reach|]. split; [left; right; now left|discriminate].
Qed.

(** The full statement fails: ResetVT keeps the storage of a bytes field with
    presence by storing an empty non-nil slice, so a recycled message has that field
    set.  The object in the pool is 2 bytes long on the wire and differs from a new
    message. *)
Theorem C36_optional_bytes_refuted : exists sc s m v,
  wf_schema sc = true /\ up_dec_ok sc /\ up_compact sc /\ up_clone_ok sc /\ up_eq_ok sc /\ pools_local sc /\
  reachable sc s /\ md_pool (md_of sc m) = true /\ drawn sc (in_pool s) m v /\
  SizeVT sc m v = 2 /\ MarshalVT sc false m v = Ok (Some [10; 0]) /\ EqualVT sc (fun _ => false) m v (new_msg (md_of sc m)) = false.
Proof.
  exists ob_sc, (PState [(0%nat, VMsg [VBytes []] [] [[]])] []), 0%nat, (VMsg [VBytes []] [] [[]]).
  pose proof ob_up as (A & B & C & D). split; [reflexivity|]. do 4 (split; [assumption|]). split; [apply ob_local|].
  split; [|split; [reflexivity|split; [left; now left|split; [reflexivity|split; reflexivity]]]].
  eapply reach_step with (a := PState [] [(0%nat, VMsg [VBytes [7]] [] [])]).
  - eapply reach_step with (a := PState [] [(0%nat, new_msg (md_of ob_sc 0))]).
    + eapply reach_step; [apply reach_start|]. apply ps_get; [reflexivity|]. now right.
    + apply (ps_unmarshal ob_sc [] [] [] 0 (new_msg (md_of ob_sc 0)) (new_al ob_sc) [10; 1; 7]); [reflexivity|now right|]. left. reflexivity.
  - apply (ps_return ob_sc [] [] [] 0 (VMsg [VBytes [7]] [] []) [(0%nat, VMsg [VBytes []] [] [[]])]); reflexivity.
Qed.
Print Assumptions C36_optional_bytes_refuted.

(** * C37 *)
Lemma same_from_rs sc m al data v b : wf_schema sc = true -> up_dec_ok sc -> up_compact sc -> md_foreign (md_of sc m) = false ->
  (forall path m, md_pool (md_of sc m) = true -> rs sc text (keeps sc) m (al path m) (new_msg (md_of sc m))) ->
  bytes_ok data = true -> small data -> rs sc text (keeps sc) m v b -> target sc m b ->
  forall Q : val -> val -> Prop, (forall x y, rs sc text (keeps sc) m x y -> y <> VNil -> Q x y) -> same_outcome Q (UnmarshalVT_pool sc al m data v) (UnmarshalVT sc m data b).
Proof.
  intros W UD UX F AL B S R T Q HQ. pose proof (um_pool_rr sc W UD UX al (Datatypes.S (length data)) AL [] m data v b F R) as X.
  change (um_pool sc al (Datatypes.S (length data)) [] m data v) with (UnmarshalVT_pool sc al m data v) in X.
  change (um_msg sc (Datatypes.S (length data)) m data b) with (UnmarshalVT sc m data b) in X.
  assert (forall y, target sc m y -> y <> VNil) as NN by (intros y [Ty _] ->; inversion Ty).
  destruct (C19_total sc m data b W UD B S T) as [(b' & E & T')|(e & b' & E & T')]; rewrite E in *; unfold rr in X.
  - destruct (UnmarshalVT_pool sc al m data v); try contradiction. constructor. apply HQ; [exact X|now apply NN].
  - destruct (UnmarshalVT_pool sc al m data v); try contradiction. destruct X as [-> X]. constructor. apply HQ; [exact X|now apply NN].
Qed.
Lemma no_keeps sc : no_optional_bytes sc -> forall m, ~ keeps sc m.
Proof. intros N m (P & f & l & Hf & T & L). destruct (N m f l P Hf T). destruct L; contradiction. Qed.
Lemma rs_content sc m x y : wf_schema sc = true -> no_optional_bytes sc -> md_foreign (md_of sc m) = false -> rs sc text (keeps sc) m x y -> y <> VNil -> same_content sc m x y.
Proof.
  intros W N F R NN. inversion R as [|? ? ? F'|? ? ? F' R']; subst; [contradiction|congruence|].
  apply (rm_same sc text (keeps sc) W text_deref (no_keeps sc N)). exact R'.
Qed.

(** Unmarshalling into a message from the pool (with sub-messages taken from the
    pools as well) ends like unmarshalling into a new message: success or the same
    error, for every input.  If no pooled message has a bytes field with presence,
    the result also has the same content. *)
Theorem C37_same_error : forall sc s m data v al,
  wf_schema sc = true -> up_dec_ok sc -> up_compact sc -> up_clone_ok sc -> pools_local sc ->
  reachable sc s -> md_pool (md_of sc m) = true -> drawn sc (in_pool s) m v ->
  (forall path m', md_pool (md_of sc m') = true -> drawn sc (in_pool s) m' (al path m')) ->
  bytes_ok data = true -> small data ->
  same_outcome (fun _ _ => True) (UnmarshalVT_pool sc al m data v) (UnmarshalVT sc m data (new_msg (md_of sc m))).
Proof.
  intros sc s m data v al W UD UX UC PL R P D A B S. destruct (reachable_ok sc W UD UX UC PL s R) as [G _].
  apply same_from_rs; auto.
  - intros. eapply alloc_rs; eauto.
  - apply rs_msg; auto. eapply drawn_rm; eauto.
  - now apply target_new.
Qed.
Print Assumptions C37_same_error.
Theorem C37_same_result_partial : forall sc s m data v al,
  wf_schema sc = true -> up_dec_ok sc -> up_compact sc -> up_clone_ok sc -> pools_local sc -> no_optional_bytes sc ->
  reachable sc s -> md_pool (md_of sc m) = true -> drawn sc (in_pool s) m v ->
  (forall path m', md_pool (md_of sc m') = true -> drawn sc (in_pool s) m' (al path m')) ->
  bytes_ok data = true -> small data ->
  same_outcome (same_content sc m) (UnmarshalVT_pool sc al m data v) (UnmarshalVT sc m data (new_msg (md_of sc m))).
Proof.
  intros sc s m data v al W UD UX UC PL N R P D A B S. destruct (reachable_ok sc W UD UX UC PL s R) as [G _].
  apply same_from_rs; auto.
  - intros. eapply alloc_rs; eauto.
  - apply rs_msg; auto. eapply drawn_rm; eauto.
  - now apply target_new.
  - intros; apply rs_content; auto.
Qed.
Print Assumptions C37_same_result_partial.
(** The same for a live message after ResetVT. *)
Theorem C37_after_reset_partial : forall sc s m data v v' q al,
  wf_schema sc = true -> up_dec_ok sc -> up_compact sc -> up_clone_ok sc -> pools_local sc -> no_optional_bytes sc ->
  reachable sc s -> md_pool (md_of sc m) = true -> In (m, v) (live s) -> v <> VNil -> ResetVT sc m v = Ok (v', q) ->
  (forall path m', md_pool (md_of sc m') = true -> drawn sc (q ++ in_pool s) m' (al path m')) ->
  bytes_ok data = true -> small data ->
  same_outcome (same_content sc m) (UnmarshalVT_pool sc al m data v') (UnmarshalVT sc m data (new_msg (md_of sc m))).
Proof.
  intros sc s m data v v' q al W UD UX UC PL N R P Hin NV E A B S. pose proof (PL m P) as F.
  destruct (reachable_ok sc W UD UX UC PL s R) as [G L]. rewrite Forall_forall in L. destruct (L _ Hin) as [_ [b Rb]]. cbn [fst snd] in Rb.
  inversion Rb as [|? ? ? F'|? ? ? F' R']; subst; [contradiction|congruence|].
  destruct (ResetVT_ok sc W PL m v b v' q P R' E) as (E' & T' & G').
  apply same_from_rs; auto.
  - intros. eapply alloc_rs with (p := q ++ in_pool s); eauto. now apply Forall_app.
  - apply rs_msg; auto. now apply emptied_rm.
  - now apply target_new.
  - intros; apply rs_content; auto.
Qed.
Print Assumptions C37_after_reset_partial.
(** Merging into a message the program built or edited: spare capacity in its lists
    makes no difference. *)
Theorem C37_spare_capacity_partial : forall sc s m data v al,
  wf_schema sc = true -> up_dec_ok sc -> up_compact sc -> up_clone_ok sc -> pools_local sc -> no_optional_bytes sc ->
  reachable sc s -> md_foreign (md_of sc m) = false -> wt_msg sc m v -> tidy sc m v -> target sc m (trim v) ->
  (forall path m', md_pool (md_of sc m') = true -> drawn sc (in_pool s) m' (al path m')) ->
  bytes_ok data = true -> small data ->
  same_outcome (same_content sc m) (UnmarshalVT_pool sc al m data v) (UnmarshalVT sc m data (trim v)).
Proof.
  intros sc s m data v al W UD UX UC PL N R F T Ti Tg A B S. destruct (reachable_ok sc W UD UX UC PL s R) as [G _].
  apply same_from_rs; auto.
  - intros. eapply alloc_rs; eauto.
  - apply rs_msg; auto. now apply tidy_rm.
  - intros; apply rs_content; auto.
Qed.
Print Assumptions C37_spare_capacity_partial.
(** The recycled Node gets its lists from spare capacity; all sub-messages come from
    the pool. *)
Definition pl_al (path : list Z) (m : nat) : val := match m with 0%nat => pl_node | 1%nat => pl_leaf | _ => new_msg (md_of pl_sc m) end.
Example C37_nonvacuous :
  reachable pl_sc pl_pool /\ drawn pl_sc (in_pool pl_pool) 0 pl_node /\
  (forall path m', md_pool (md_of pl_sc m') = true -> drawn pl_sc (in_pool pl_pool) m' (pl_al path m')) /\
  UnmarshalVT_pool pl_sc pl_al 0 pl_data pl_node <> UnmarshalVT pl_sc 0 pl_data (new_msg (md_of pl_sc 0)) /\
  exists r, UnmarshalVT_pool pl_sc pl_al 0 (pl_data ++ pl_data) pl_node = Ok r.
Proof.
  split; [apply pl_reach|]. split; [left; right; now left|]. split.
  - intros path [|[|m]] P; [left; right; now left|left; now left|now right].
  - split; [vm_compute; discriminate|]. eexists. vm_compute. reflexivity.
Qed.
Definition pl_resliced (i : Z) : val := VMsg [VList []; VStr []; VNil; VNil; VNil] [] [[VMsg [VInt i; VNil] [] []]].
Example C37_spare_nonvacuous : wt_msg pl_sc 0 (pl_resliced 0) /\ tidy pl_sc 0 (pl_resliced 0) /\ target pl_sc 0 (trim (pl_resliced 0)).
Proof.
  split; [now apply (check_ok pl_sc 5)|]. split.
  - assert (forall x, In x [VMsg [VInt 0; VNil] [] []] -> emptied pl_sc 1 x /\ tidy pl_sc 1 x) as Q.
    { intros x [<-|[]]. split; [apply rm_emptied; [reflexivity|now apply new_rm]|]. apply compact_tidy; reflexivity. }
    assert (forall m' x, spare pl_sc 0 (pl_resliced 0) m' x -> m' = 1%nat /\ In x [VMsg [VInt 0; VNil] [] []]) as Sp.
    { intros m' x [m1 s u h f p k Hw F Hf T Sk Hx Nx].
      inversion Hw as [|? s0 u0 h0 f0 k0 m2 y ? ? _ Hf0 Hh Sk0 Hw']; subst.
      - cbn in Hf. repeat (destruct Hf as [<-|Hf]; [cbn in T; try discriminate; injection T as <- <-; cbn in Sk; try discriminate; injection Sk as <-; cbn in Hx; try contradiction; try (split; [reflexivity|exact Hx])|]). destruct Hf.
      - exfalso. cbn in Hf0. repeat (destruct Hf0 as [<-|Hf0]; [cbn in Hh; inversion Hh; subst; cbn in *; try discriminate; try contradiction; try congruence; (match goal with H : TField _ _ = TField _ _ |- _ => injection H; intros; subst end; match goal with H : _ \/ _ |- _ => destruct H as [H|H]; try discriminate H end; try discriminate Sk0; congruence)|]); destruct Hf0. }
    constructor; [|intros m' x Sx; destruct (Sp m' x Sx) as [-> Hx]; first [discriminate|intros _; now apply Q]..].
    intros m1 s u h i Hw F Ni. inversion Hw as [|? s0 u0 h0 f0 k0 m2 y ? ? _ Hf0 Hh Sk0 Hw']; subst.
    + destruct i as [|[|i]]; try (destruct (Ni eq_refl)). split; [reflexivity|]. eexists; do 3 eexists. split; [left; reflexivity|]. repeat split; reflexivity.
    + exfalso. cbn in Hf0. repeat (destruct Hf0 as [<-|Hf0]; [cbn in Hh; inversion Hh; subst; cbn in *; try discriminate; try contradiction; try congruence; (match goal with H : TField _ _ = TField _ _ |- _ => injection H; intros; subst end; match goal with H : _ \/ _ |- _ => destruct H as [H|H]; try discriminate H end; try discriminate Sk0; congruence)|]); destruct Hf0.
  - split; [now apply (check_ok pl_sc 5)|]. cbn [trim pl_resliced]. constructor.
    + intros f l k m' Hf T [->| ->] Sk; cbn in Hf; repeat (destruct Hf as [<-|Hf]; [cbn in *; auto; discriminate|]); destruct Hf.
    + intros f k m' x Hf T; cbn in Hf; repeat (destruct Hf as [<-|Hf]; [discriminate|]); destruct Hf.
    + intros f p k m' x Hf T Sk Hx. destruct (f_slot f) in Hx; destruct Hx.
Qed.

(** Outside [tidy]: the program shortens a list by reslicing (node.Q = node.Q[:0]),
    leaving a non-empty element in the spare capacity.  The elements ResetVT visits
    are those below len, so after ReturnToVTPool and FromVTPool, unmarshalling an
    element with no fields resurrects the old element's content. *)
Theorem C37_resliced_refuted : exists sc m v w data r r',
  wf_schema sc = true /\ up_dec_ok sc /\ up_compact sc /\ up_clone_ok sc /\ up_eq_ok sc /\ pools_local sc /\ no_optional_bytes sc /\
  md_pool (md_of sc m) = true /\ wt_msg sc m v /\ SizeVT sc m v = 0 /\ ReturnToVTPool sc m v = Ok [(m, w)] /\
  UnmarshalVT_pool sc (new_al sc) m data w = Ok r /\ UnmarshalVT sc m data (new_msg (md_of sc m)) = Ok r' /\
  EqualVT sc (fun _ => false) m r r' = false /\ SizeVT sc m r = 4 /\ SizeVT sc m r' = 2.
Proof.
  do 2 eexists. exists (pl_resliced 42). do 4 eexists. pose proof pl_up as (A & B & C & D). split; [exact pl_wf|]. do 4 (split; [eassumption|]).
  split; [apply pl_local|]. split; [apply pl_no_opt|]. split; [instantiate (1 := 0%nat); reflexivity|]. split; [now apply (check_ok pl_sc 5)|]. split; [reflexivity|].
  split; [reflexivity|]. split; [instantiate (2 := [10; 0]); reflexivity|]. split; [reflexivity|]. split; [reflexivity|]. split; reflexivity.
Qed.
Print Assumptions C37_resliced_refuted.

(** * C49 *)
(** ResetVT and ReturnToVTPool run to completion on every message unless a list of
    messages without pool contains nil. *)
Theorem C49_no_panic_partial : forall sc m v,
  wf_schema sc = true -> pools_local sc -> md_pool (md_of sc m) = true -> v = VNil \/ wt_msg sc m v -> no_nil_elements sc m v ->
  (exists v' q, ResetVT sc m v = Ok (v', q)) /\ exists q, ReturnToVTPool sc m v = Ok q.
Proof.
  intros sc m v W PL P [->|T] N; [split; [exists VNil, []; reflexivity|exists []; reflexivity]|].
  destruct (reset_msg_fine sc W PL (Datatypes.S (vdepth v)) m v ltac:(lia) P T N) as [[v' q] E].
  change (ResetVT sc m v = Ok (v', q)) in E. split; [eauto|]. inversion T; subst. unfold ReturnToVTPool. rewrite E. cbn. eauto.
Qed.
Print Assumptions C49_no_panic_partial.
Example C49_nonvacuous : wt_msg pl_sc 0 pl_live /\ no_nil_elements pl_sc 0 pl_live.
Proof.
  split; [now apply (check_ok pl_sc 5)|]. intros m1 s u h f p k m' l Hw _ Hf T Sk P E Hin.
  inversion Hw as [|? s0 u0 h0 f0 k0 m2 y ? ? _ Hf0 Hh Sk0 Hw']; subst.
  - cbn in Hf. repeat (destruct Hf as [<-|Hf]; [cbn in T; try discriminate T; injection T as <- <-; cbn in Sk; injection Sk as <-; cbn in P; try discriminate P; cbn in E; injection E as <-; destruct Hin as [Hin|Hin]; try discriminate Hin; destruct Hin|]). destruct Hf.
  - assert (forall i z, m2 = 1%nat -> y = VMsg [VInt i; z] [] [] -> False) as L1.
    { intros i z -> ->. inversion Hw' as [|? s1 u1 h1 f1 k1 m3 y1 ? ? _ Hf1 Hh1 Sk1 Hw1]; subst.
      - cbn in Hf. repeat (destruct Hf as [<-|Hf]; [cbn in T; try discriminate T; injection T as <- <-; discriminate Sk|]). destruct Hf.
      - cbn in Hf1. repeat (destruct Hf1 as [<-|Hf1]; [inversion Hh1; subst; (match goal with H : f_ty _ = _ |- _ => cbn in H; try discriminate H; injection H; intros; subst end); discriminate Sk1|]). destruct Hf1. }
    assert (forall z, m2 = 2%nat -> y = VMsg [z] [] [] -> False) as L2.
    { intros z -> ->. inversion Hw' as [|? s1 u1 h1 f1 k1 m3 y1 ? ? _ Hf1 Hh1 Sk1 Hw1]; subst.
      - cbn in Hf. repeat (destruct Hf as [<-|Hf]; [discriminate T|]). destruct Hf.
      - cbn in Hf1. repeat (destruct Hf1 as [<-|Hf1]; [inversion Hh1; subst; (match goal with H : f_ty _ = _ |- _ => cbn in H; try discriminate H; injection H; intros; subst end); discriminate Sk1|]). destruct Hf1. }
    cbn in Hf0. repeat (destruct Hf0 as [<-|Hf0]; [inversion Hh; subst; cbn in *; try congruence;
      try (match goal with H : TField _ _ = TField _ _ |- _ => injection H; intros; subst end); cbn in Sk0; try discriminate Sk0; injection Sk0 as <-;
      repeat (match goal with H : _ \/ _ |- _ => destruct H as [H|H]; try discriminate H; try contradiction; subst end); eauto|]). destruct Hf0.
Qed.
(** A nil element in a list of messages without pool: the generated code calls its
    Reset method, which dereferences it. *)
Theorem C49_nil_element_refuted : exists sc m v,
  wf_schema sc = true /\ pools_local sc /\ md_pool (md_of sc m) = true /\ wt_msg sc m v /\
  ResetVT sc m v = Panic /\ ReturnToVTPool sc m v = Panic.
Proof.
  exists pl_sc, 0%nat, (VMsg [VNil; VStr []; VNil; VNil; VList [VNil]] [] []). split; [apply pl_wf|]. split; [apply pl_local|]. split; [reflexivity|].
  split; [now apply (check_ok pl_sc 5)|]. split; reflexivity.
Qed.
Print Assumptions C49_nil_element_refuted.
