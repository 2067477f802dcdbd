(** Properties C38 and C39: UnmarshalVTUnsafe decodes the same values and its strings
    are exact parts of the input; UnmarshalVT never aliases its input. *)
From Coq Require Import ZArith List Bool Lia Permutation.
From Verif Require Import Base BaseFacts Schema Value Helpers Size Marshal Unmarshal Equal Clone Pool Unsafe WireSpec Typing RecordSpec MsgSpec DecodeSpec ContentSpec EqualSpec CloneSpec PoolSpec UnsafeSpec
  OrderFacts MarshalFacts TargetFacts SameFacts WithinFacts EqualRel RunRel RunFacts PoolFacts PoolRun UnsafeFacts Ex PropsUnmarshal PropsPool.
Import ListNotations.
Open Scope Z_scope.

Lemma aliased_deref D k a : aliased D k a -> deref a = a.
Proof. intros [H|(off & s & _ & [(_ & _ & ->)|(_ & ->)])]; [eapply text_deref; eauto|reflexivity|reflexivity]. Qed.
Lemma unsafe_rr sc D kept al m v b : wf_schema sc = true -> up_dec_ok sc -> up_compact sc -> md_foreign (md_of sc m) = false ->
  (forall path m, md_pool (md_of sc m) = true -> rs sc text kept m (al path m) (new_msg (md_of sc m))) -> rs sc text kept m v b ->
  rr (rs sc (aliased D) kept m) (rs sc (aliased D) kept m) (UnmarshalVTUnsafe sc al m D v) (UnmarshalVT sc m D b).
Proof.
  intros W UD UX F AL R.
  assert (forall k a, text k a -> aliased D k a) as TA by (intros; now left).
  apply (um_unsafe_rr sc W UD D (aliased D) kept).
  - left. left. eauto.
  - left. right. auto.
  - intros off s Zs N. right. exists off, s. auto.
  - intros off s Zs. right. exists off, s. auto.
  - intros a [[[_ [s ->]]|[K _]]|(off & s & _ & [(_ & _ & ->)|(K & _)])]; try discriminate K; exact I.
  - intros m0 bs v0 F0 E. apply (rm_mono sc text (aliased D) kept kept TA (fun _ H => H)). apply compact_rm; auto; [|eapply UX; eauto].
    destruct (up_ext_wt sc UD m0 bs v0 E). assumption.
  - intros path m0 P. eapply rs_mono; [exact TA|exact (fun _ H => H)|auto].
  - cbn [Z.add]. replace (zlen D) with (zlen ([] ++ D)) by reflexivity. pose proof (zslice_pre D []) as Z0. rewrite app_nil_r in Z0. exact Z0.
  - exact F.
  - eapply rs_mono; [exact TA|exact (fun _ H => H)|exact R].
Qed.
Lemma aliased_shows D k a : aliased D k a -> shows D a = vbytes a.
Proof.
  intros [[[_ [s ->]]|[_ [->|[s ->]]]]|(off & s & Zs & X)]; try reflexivity.
  destruct (zslice_inv _ _ _ _ Zs) as (p & q & -> & <- & L). assert (firstn (length s) (skipn (Z.to_nat (zlen p)) (p ++ s ++ q)) = s) as E.
  { unfold zlen. rewrite Nat2Z.id, skipn_app, skipn_all, Nat.sub_diag. cbn [app skipn]. rewrite firstn_app, Nat.sub_diag, firstn_all. cbn. apply app_nil_r. }
  destruct X as [(_ & _ & ->)|(_ & ->)]; exact E.
Qed.
Lemma aliased_part D k a : aliased D k a -> part_of D a \/ a = VNil \/ (exists s, a = VStr s) \/ exists s, a = VBytes s.
Proof.
  intros [[[_ [s ->]]|[_ [->|[s ->]]]]|(off & s & Zs & X)]; eauto.
  left. destruct (zslice_inv _ _ _ _ Zs) as (p & q & -> & <- & L). exists p, s, q. split; [reflexivity|]. destruct X as [(_ & _ & ->)|(_ & ->)]; auto.
Qed.

(** * C38 *)
(** For every input and receiver, UnmarshalVTUnsafe succeeds or fails exactly like
    UnmarshalVT; while the buffer holds the input, the resulting message has the
    same content, and every string and byte slice in it shows its decoded content. *)
Theorem C38_same_content : forall sc m data v,
  wf_schema sc = true -> up_dec_ok sc -> up_compact sc -> md_foreign (md_of sc m) = false ->
  bytes_ok data = true -> small data -> target sc m v -> trim v = v ->
  same_outcome (fun x y => same_content sc m x y /\ forall k a, text_in sc m x k a -> shows data a = vbytes a)
    (UnmarshalVTUnsafe sc (new_al sc) m data v) (UnmarshalVT sc m data v).
Proof.
  intros sc m data v W UD UX F B S T C.
  assert (rs sc text (fun _ => False) m v v) as R by (apply rs_msg; auto; apply compact_rm; auto; apply T).
  pose proof (unsafe_rr sc data (fun _ => False) (new_al sc) m v v W UD UX F) as X.
  specialize (X (fun p m' _ => rs_new sc text (fun _ => False) W m' ltac:(left; eauto) ltac:(right; auto)) R).
  assert (forall x y, rs sc (aliased data) (fun _ => False) m x y -> target sc m y -> same_content sc m x y /\ forall k a, text_in sc m x k a -> shows data a = vbytes a) as Q.
  { intros x y Rxy Ty. split.
    - inversion Rxy as [|? ? ? F'|? ? ? F' RM]; subst; [destruct Ty as [Ty _]; inversion Ty|congruence|].
      apply (rm_same sc (aliased data) (fun _ => False) W (aliased_deref data) (fun _ H => H)). exact RM.
    - intros k a Ha. apply (aliased_shows data k). apply (rs_text sc (aliased data) (fun _ => False) ltac:(left; right; eauto) m x y k a Rxy Ha). }
  destruct (C19_total sc m data v W UD B S T) as [(b' & E & T')|(e & b' & E & T')]; rewrite E in *; unfold rr in X.
  - destruct (UnmarshalVTUnsafe sc (new_al sc) m data v); try contradiction. constructor. now apply Q.
  - destruct (UnmarshalVTUnsafe sc (new_al sc) m data v); try contradiction. destruct X as [-> X]. constructor. now apply Q.
Qed.
Print Assumptions C38_same_content.
(** Into a new message of a schema without extensions: nothing is copied.  Every
    string and byte slice is empty or an exact part of the input. *)
Theorem C38_no_copies : forall sc m data v e,
  wf_schema sc = true -> up_dec_ok sc -> md_foreign (md_of sc m) = false -> (forall m' bs, up_ext (sc_up sc) m' bs = None) ->
  UnmarshalVTUnsafe sc (new_al sc) m data (new_msg (md_of sc m)) = Ok v \/ UnmarshalVTUnsafe sc (new_al sc) m data (new_msg (md_of sc m)) = Err e v ->
  forall k a, text_in sc m v k a -> part_of data a \/ a = VNil \/ a = VStr [] \/ a = VBytes [].
Proof.
  intros sc m data v e W UD F NE H k a Ha.
  assert (rr (rs sc (aliased_only data) (fun _ => False) m) (rs sc (aliased_only data) (fun _ => False) m) (UnmarshalVTUnsafe sc (new_al sc) m data (new_msg (md_of sc m))) (UnmarshalVT sc m data (new_msg (md_of sc m)))) as X.
  { assert (aliased_only data KString (VStr [])) as A1 by (left; auto). assert (aliased_only data KBytes VNil) as A2 by (right; left; auto).
    apply (um_unsafe_rr sc W UD data (aliased_only data) (fun _ => False)); auto.
    - intros off s Zs N. right. right. exists off, s. auto.
    - intros off s Zs. right. right. exists off, s. auto.
    - intros x [[_ ->]|[[K _]|(off & s & _ & [(_ & _ & ->)|(K & _)])]]; try discriminate K; exact I.
    - intros m0 bs v0 _ E. now rewrite NE in E.
    - intros. now apply rs_new.
    - cbn [Z.add]. replace (zlen data) with (zlen ([] ++ data)) by reflexivity. pose proof (zslice_pre data []) as Z0. rewrite app_nil_r in Z0. exact Z0.
    - now apply rs_new. }
  assert (exists b, rs sc (aliased_only data) (fun _ => False) m v b) as [b R].
  { destruct H as [H|H]; rewrite H in X; unfold rr in X; destruct (UnmarshalVT sc m data (new_msg (md_of sc m))); try contradiction; [eauto|destruct X; eauto]. }
  assert (aliased_only data k a) as A by (apply (rs_text sc (aliased_only data) (fun _ => False) ltac:(right; left; auto) m v b k a R Ha)).
  destruct A as [[_ ->]|[[_ [->| ->]]|(off & s & Zs & Y)]]; auto.
  left. destruct (zslice_inv _ _ _ _ Zs) as (p & q & -> & <- & L). exists p, s, q. split; [reflexivity|]. destruct Y as [(_ & _ & ->)|(_ & ->)]; auto.
Qed.
Print Assumptions C38_no_copies.
(** With pools: sub-messages from the pools of a history that decodes with
    UnmarshalVT, and a receiver with spare capacity. *)
Theorem C38_pooled_partial : forall sc s m data v al,
  wf_schema sc = true -> up_dec_ok sc -> up_compact sc -> up_clone_ok sc -> pools_local sc -> no_optional_bytes sc ->
  reachable sc s -> md_foreign (md_of sc m) = false -> wt_msg sc m v -> tidy sc m v -> target sc m (trim v) ->
  (forall path m', md_pool (md_of sc m') = true -> drawn sc (in_pool s) m' (al path m')) ->
  bytes_ok data = true -> small data ->
  same_outcome (fun x y => same_content sc m x y /\ forall k a, text_in sc m x k a -> shows data a = vbytes a)
    (UnmarshalVTUnsafe sc al m data v) (UnmarshalVT sc m data (trim v)).
Proof.
  intros sc s m data v al W UD UX UC PL N R F T Ti Tg A B S. destruct (reachable_ok sc W UD UX UC PL s R) as [G _].
  assert (rs sc text (keeps sc) m v (trim v)) as R0 by (apply rs_msg; auto; now apply tidy_rm).
  pose proof (unsafe_rr sc data (keeps sc) al m v (trim v) W UD UX F) as X. specialize (X (fun p m' P => alloc_rs sc W PL (in_pool s) al G A p m' P) R0).
  assert (forall x y, rs sc (aliased data) (keeps sc) m x y -> target sc m y -> same_content sc m x y /\ forall k a, text_in sc m x k a -> shows data a = vbytes a) as Q.
  { intros x y Rxy Ty. split.
    - inversion Rxy as [|? ? ? F'|? ? ? F' RM]; subst; [destruct Ty as [Ty _]; inversion Ty|congruence|].
      apply (rm_same sc (aliased data) (keeps sc) W (aliased_deref data) (no_keeps sc N)). exact RM.
    - intros k a Ha. apply (aliased_shows data k). apply (rs_text sc (aliased data) (keeps sc) ltac:(left; right; eauto) m x y k a Rxy Ha). }
  destruct (C19_total sc m data (trim v) W UD B S Tg) as [(b' & E & T')|(e & b' & E & T')]; rewrite E in *; unfold rr in X.
  - destruct (UnmarshalVTUnsafe sc al m data v); try contradiction. constructor. now apply Q.
  - destruct (UnmarshalVTUnsafe sc al m data v); try contradiction. destruct X as [-> X]. constructor. now apply Q.
Qed.
Print Assumptions C38_pooled_partial.

(** The hypotheses are met, and the aliases are real: the decoded string and byte slice
    follow the buffer when it is overwritten. *)
Definition us_live : val := VMsg [ VNil; VRefS 2 [97; 98]; VRefB 6 [1; 2; 3]; VNil; VList [VMsg [VRefS 13 [99]] [] []] ] [] [].
Definition us_data : list Z := [18; 2; 97; 98; 26; 3; 1; 2; 3; 42; 3; 10; 1; 99].
Example C38_nonvacuous :
  wf_schema pl_sc = true /\ up_dec_ok pl_sc /\ up_compact pl_sc /\ target pl_sc 0 (new_msg (md_of pl_sc 0)) /\
  trim (new_msg (md_of pl_sc 0)) = new_msg (md_of pl_sc 0) /\
  (forall m' bs, up_ext (sc_up pl_sc) m' bs = None) /\
  UnmarshalVTUnsafe pl_sc (new_al pl_sc) 0 us_data (new_msg (md_of pl_sc 0)) = Ok (VMsg [ VNil; VRefS 2 [97; 98]; VRefB 6 [1; 2; 3]; VNil; VList [VMsg [VRefS 13 [99]] [] []] ] [] []).
Proof.
  split; [apply pl_wf|]. destruct pl_up as (UD & UX & UC & UE). split; [exact UD|]. split; [exact UX|]. split; [apply target_new; apply pl_wf|].
  split; [reflexivity|]. split; [intros; reflexivity|]. vm_compute. reflexivity.
Qed.
Example C38_overwritten : text_in pl_sc 0 us_live KString (VRefS 13 [99]) /\
  shows us_data (VRefS 13 [99]) = [99] /\ shows (firstn 13 us_data ++ [100]) (VRefS 13 [99]) = [100].
Proof.
  split; [|split; reflexivity].
  apply (text_at pl_sc 0 us_live KString (VRefS 13 [99]) 2 [VRefS 13 [99]] [] [] (mkF 1 0 (TField LImplicit KString))); auto.
  - eapply (in_sub pl_sc 0 _ _ _ (mkF 5 4 (TField (LRepeated false) (KMessage 2))) (KMessage 2) 2); [reflexivity|cbn; tauto| |reflexivity|apply in_self].
    eapply holds_list; [reflexivity|]. cbn. now left.
  - cbn. tauto.
  - apply to_implicit. reflexivity.
Qed.

(** * C39 *)
Lemma wt_text sc m f v k a : wt_field sc (md_of sc m) f v -> In f (md_fields (md_of sc m)) -> wf_schema sc = true ->
  text_of f v k a -> k = KString \/ k = KBytes -> wt_elem sc k a.
Proof.
  intros T Hf W H K.
  destruct H as [f k a Tf|f l a Tf L|f l a Tf L N|f p k l a Tf I|f k vk l a z Tf I|f kk k l z a Tf I|f k a Tf];
    inversion T as [? ? Z|? ? ? ? T0 X|? ? ? ? ? T0 L0 K0 X|? ? ? ? ? T0 L0 K1 K2 X|? ? ? ? ? T0 X|? ? ? ? ? T0 X1 X2 ND|? ? ? g k' ? T0 Hg Sg Tg X]; subst;
    try (rewrite Tf in T0; try discriminate T0; try (injection T0; intros; subst)); auto;
    try (match goal with H : _ = LOptional \/ _ |- _ => destruct H; discriminate end); try congruence.
  - rewrite Tf in Z. destruct K; subst; cbn in Z; [discriminate|]. apply wt_nilbytes.
  - destruct K0; discriminate.
  - exact (X1 (a, z) I).
  - exact (X2 (z, a) I).
  - assert (g = f) as -> by (eapply wf_num_inj; eauto). rewrite Tf in Tg. injection Tg as <-. exact X.
Qed.
(** UnmarshalVT copies every string and byte slice: the message shows the same content
    whatever the buffer holds afterwards.  (C39_touches and C39_buffer in PropsHeapDec.v are
    about the memory itself.) *)
Theorem C39_no_alias : forall sc m data v,
  wf_schema sc = true -> up_dec_ok sc -> md_foreign (md_of sc m) = false -> bytes_ok data = true -> small data -> target sc m v ->
  exists v', (UnmarshalVT sc m data v = Ok v' \/ exists e, UnmarshalVT sc m data v = Err e v') /\
    forall k a, text_in sc m v' k a -> ~ part_of data a /\ forall buf, shows buf a = vbytes a.
Proof.
  intros sc m data v W UD F B S T.
  assert (forall v', target sc m v' -> forall k a, text_in sc m v' k a -> ~ part_of data a /\ forall buf, shows buf a = vbytes a) as Q.
  { intros v' [Tv _] k a [m1 s u h f Hw F1 Hf Ht K].
    destruct (within_wt sc W m v' m1 _ Hw (or_intror Tv)) as [E|T1]; [discriminate|].
    inversion T1 as [? ? ? ? L X Bu]; subst.
    pose proof (wt_text sc m1 f _ k a (X f Hf) Hf W Ht K) as E.
    assert (a = VNil \/ (exists s, a = VStr s) \/ (exists s, a = VBytes s)) as C by (destruct K; subst; inversion E; subst; eauto; discriminate).
    split; [intros (p & t & q & _ & [Y|Y]); subst; destruct C as [C|[[t' C]|[t' C]]]; discriminate|].
    intros buf. destruct C as [->|[[t' ->]|[t' ->]]]; reflexivity. }
  destruct (C19_total sc m data v W UD B S T) as [(b' & E & T')|(e & b' & E & T')]; exists b'; split; eauto.
Qed.
Print Assumptions C39_no_alias.
Example C39_nonvacuous : target pl_sc 0 (new_msg (md_of pl_sc 0)) /\
  UnmarshalVT pl_sc 0 us_data (new_msg (md_of pl_sc 0)) = Ok (VMsg [ VNil; VStr [97; 98]; VBytes [1; 2; 3]; VNil; VList [VMsg [VStr [99]] [] []] ] [] []).
Proof. split; [apply target_new; apply pl_wf|]. vm_compute. reflexivity. Qed.
