(** Properties C52: programs built from different versions of a schema. *)
From Coq Require Import ZArith List Bool Lia Permutation.
From Verif Require Import Base BaseFacts Schema Value Helpers Size Marshal Unmarshal WireSpec Typing RecordSpec MsgSpec
  VarintFacts SkipFacts OrderFacts NumFacts ViewFacts TargetFacts UmFacts LoopFacts DecodeSpec DecodeFacts MergeFacts
  SimFacts MarshalFacts MarshalTop ReorderFacts ContentSpec SameFacts RoundTrip RoundTripTop WithinFacts CleanFacts Ex
  EvolveSpec EvolveFacts EvolveRT PropsMarshal PropsUnmarshal PropsRecords PropsRoundTrip PropsReencode.
Import ListNotations.
Open Scope Z_scope.

(** No nil message stands for one with required fields (a map entry without value
    leaves nil behind); messages without helpers survive upstream's own encoding and
    decoding. *)
Definition sound (sc : schema) (P : nat -> val -> val -> Prop) (m : nat) (v : val) : Prop :=
  forall m' x, within sc m v m' x ->
    if md_foreign (md_of sc m') then ok_here sc P m' x /\ (x = VNil -> up_init (sc_up sc) m' VNil = true)
    else x = VNil -> no_required sc m'.

Section Unknown.
Variables so sn : schema.
Hypothesis Wo : wf_schema so = true.
Hypothesis Wn : wf_schema sn = true.
Hypothesis O : older so sn.

Lemma fields_unknown m bs v v' nums : dec_fields sn m bs v v' nums -> (forall f, In f (md_fields (md_of so m)) -> ~ In (f_num f) nums) ->
  unknown_records so m bs.
Proof.
  induction 1 as [m v|m num c bs v v1 v' nums D Df IH]; intros N.
  - exists []. split; [reflexivity|constructor].
  - destruct IH as (rs & -> & F); [intros f Hf Hi; apply (N f Hf); now right|].
    exists (c :: rs). split; [reflexivity|]. constructor; [|assumption].
    destruct (chunk_record _ _ _ _ _ _ D) as (wt & Rc). exists num, wt. split; [|assumption].
    assert (0 < num < 536870912) as Rn.
    { assert (exists s u h, v = VMsg s u h) as (s & u & h & ->) by (inversion D; eauto).
      destruct (record_cases _ _ _ _ _ _ _ _ D) as [(f & y & Hf & <- & _)|((U & _) & _)]; [|assumption]. pose proof (wf_num sn m f Wn Hf). lia. }
    split; [assumption|]. split; [intros f Hf E; apply (N f Hf); now left|].
    intros r Hr. rewrite (proj1 (old_noext _ _ O m)) in Hr. destruct Hr.
Qed.
Lemma repv_kind k m a x : sub_of k = Some m -> repv so sn k a x -> repv so sn (KMessage m) a x.
Proof.
  intros S R. inversion R; subst; try congruence.
  - eapply rv_nil; reflexivity.
  - eapply rv_up; [reflexivity|congruence].
  - eapply rv_msg; [reflexivity| |]; [congruence|]. replace m with m0 by congruence. assumption.
Qed.
Lemma holds_rep m f a x k y m1 : repf so sn m f a x -> holds f a k y -> sub_of k = Some m1 -> In f (md_fields (md_of so m)) ->
  exists z, repv so sn (KMessage m1) y z.
Proof.
  intros R H S Hf.
  destruct R as [m f k1 x Q|m f l1 k1 Q L1|m f l1 k1 z Q L1 K1|m f l1 k1 a x Q L1 K1 K2 N1 N2 Rk|m f p1 k1 a x Q F|m f kk1 k1 a x Q F|m f k1 Q|m f k0 g k1 a x Q Hg Sg Tg Rk];
    inversion H as [? p ? l ? Ty Hy|? kk ? l y0 ? Ty Hy|? l ? ? Ty L Ny|? ? ? Ty]; subst; rewrite Q in Ty; try discriminate Ty;
    injection Ty; intros; subst; try (destruct L; discriminate); try (destruct L1; discriminate); try (now destruct Ny).
  - destruct K1 as [K1| ->]; [destruct k; discriminate|discriminate].
  - eexists. exact (repv_kind _ _ _ _ S Rk).
  - cbn [vlist] in F. destruct (Forall2_in_l _ _ _ _ F Hy) as (z & _ & Rz). exists z. exact (repv_kind _ _ _ _ S Rz).
  - cbn [vmap] in F. destruct (Forall2_in_l _ _ _ _ F Hy) as (z & _ & _ & Rz). exists (snd z). exact (repv_kind _ _ _ _ S Rz).
  - assert (g = f) as -> by (eapply (wf_num_inj so); eauto). rewrite Q in Tg. injection Tg as ->. eexists. exact (repv_kind _ _ _ _ S Rk).
Qed.
Lemma rep_records m a m' y : within so m a m' y -> forall x, repv so sn (KMessage m) a x -> md_foreign (md_of so m') = false ->
  forall s u h, y = VMsg s u h -> unknown_records so m' u.
Proof.
  induction 1 as [m v|m s u h f k m1 y m' z F Hf Hh Sk Hw IH]; intros x R F' s' u' h' E.
  - subst v. rewrite (old_foreign _ _ O) in F'. inversion R as [? ? Sk| |? ? ? Sk Fx|? ? ? ? Sk Fx Rm]; subst; cbn in Sk; try congruence.
    injection Sk as <-. inversion Rm; subst. eapply fields_unknown; eauto.
  - rewrite (old_foreign _ _ O) in F. inversion R as [? ? Sk'| |? ? ? Sk' Fx|? ? ? ? Sk' Fx Rm]; subst; cbn in Sk'; try congruence.
    injection Sk' as <-. inversion Rm as [? ? ? sx ux s1 nums L1 L2 L3 H1 H2 H3 H4]; subst.
    destruct (holds_rep m f _ _ k y m1 (H1 f Hf) Hh Sk Hf) as (zz & Rz). eapply IH; eauto.
Qed.
End Unknown.

(** * C52 *)
Theorem C52_older_reader : forall so sn (P : nat -> val -> val -> Prop) strict m bs v,
  wf_schema so = true -> wf_schema sn = true -> older so sn ->
  up_enc_ok so -> up_dec_ok so -> up_dec_ok sn -> up_dec_init so ->
  (forall m x, md_foreign (md_of sn m) = true -> P m x x) ->
  md_foreign (md_of sn m) = false -> bytes_ok bs = true -> small bs ->
  decodes sn m bs (new_msg (md_of sn m)) v ->
  exists w, accepts so m bs (new_msg (md_of so m)) w /\
    (sound so P m w -> exists bs', MarshalVT so strict m w = Ok (Some bs') /\
      (small bs' -> exists v', accepts sn m bs' (new_msg (md_of sn m)) v' /\ same_msg sn same_bits zero_lax P m v v')).
Proof.
  intros so sn P strict m bs v Wo Wn O UE UDo UDn UI PRF Fn B S D.
  assert (md_foreign (md_of so m) = false) as F by now rewrite (old_foreign _ _ O).
  destruct (older_reads so sn Wo Wn O UDn) as (_ & RD & _).
  destruct (RD m bs _ v D (new_msg (md_of so m)) ltac:(apply rep_own; [assumption|now apply rep_new])) as (w & Dw & Rw).
  pose proof (C20_decodes so m bs _ w Wo UDo B S (target_new so Wo m) F Dw) as A.
  exists w. split; [exact A|]. intros SN.
  assert (no_extensions so) as NX by (intros m' _; apply (old_noext _ _ O m')).
  assert (settled so P m w) as SE.
  { intros m' x Hw. pose proof (SN m' x Hw) as Q. destruct (md_foreign (md_of so m')) eqn:F'; [exact Q|]. split; [exact Q|].
    intros s u h E _. eapply rep_records; eauto. }
  pose proof (UnmarshalVT_clean so Wo UI UDo NX m bs w F A) as C.
  assert (wt_msg so m w) as T.
  { destruct (UnmarshalVT_total so Wo UDo m bs (new_msg (md_of so m)) B S (target_new so Wo m)) as [(x & Ex & [Tx _])|(e & x & Ex & _)];
      unfold accepts in A; rewrite A in Ex; [injection Ex as ->; exact Tx|discriminate]. }
  assert (wt_msg sn m v) as Tv.
  { pose proof (C20_decodes sn m bs _ v Wn UDn B S (target_new sn Wn m) Fn D) as A'.
    destruct (UnmarshalVT_total sn Wn UDn m bs (new_msg (md_of sn m)) B S (target_new sn Wn m)) as [(x & Ex & [Tx _])|(e & x & Ex & _)];
      unfold accepts in A'; rewrite A' in Ex; [injection Ex as ->; exact Tx|discriminate]. }
  assert (wt_ptrmsg so m w) as T' by now right.
  assert (~ MissingRequired so m w) as NM.
  { intros M. apply (clean_complete so m w M F C). intros m' Hw F'. specialize (SE _ _ Hw). rewrite F' in SE. now apply SE. }
  pose proof (Initialized_missing so m w Wo T') as IM.
  pose proof (top_marshal so Wo UE strict m w T' ltac:(intros ->; inversion T)) as TM.
  destruct (Initialized so m w) eqn:In; [|exfalso; apply NM; now apply IM].
  eexists. split; [exact TM|]. intros S'.
  assert (decodable so P m w) as DC.
  { intros m' x Hw. pose proof (SE m' x Hw) as Q. unfold ok_here.
    destruct (md_foreign (md_of so m')) eqn:F'; [unfold ok_here in Q; rewrite F' in Q; apply Q|].
    destruct Q as [Q1 Q2]. split; [exact Q1|]. intros s u h ->. split; [eapply Q2; eauto|].
    destruct (clean_within so m w m' _ C Hw) as [|Cx]; [discriminate|].
    inversion Cx as [? ? ? _ _ _ G _|? ? ? ? F2]; subst; [exact G|congruence]. }
  destruct (encoding_rt so sn (order so strict) P Wo Wn O ltac:(intros; apply order_perm) UDn PRF (Datatypes.S (vdepth w)) m w v T' ltac:(lia) F DC NM) as (v' & D' & Sm); auto.
  { now right. }
  exists v'. split.
  - apply (C20_decodes sn m _ _ v' Wn UDn); auto; [|now apply target_new]. eapply enc_bytes; eauto; intros; apply order_perm.
  - inversion Tv; subst. exact Sm.
Qed.
Print Assumptions C52_older_reader.

(** Without required fields and with helpers for every message type (the usual proto3
    case) nothing is asked of the message. *)
Definition plain (sc : schema) : Prop := forall m, md_foreign (md_of sc m) = false /\ no_required sc m.
Theorem C52_older_reader_plain : forall so sn strict m bs v,
  wf_schema so = true -> wf_schema sn = true -> older so sn -> plain so -> up_dec_ok so -> up_dec_ok sn ->
  bytes_ok bs = true -> small bs -> decodes sn m bs (new_msg (md_of sn m)) v ->
  exists w bs', accepts so m bs (new_msg (md_of so m)) w /\ MarshalVT so strict m w = Ok (Some bs') /\
    (small bs' -> exists v', accepts sn m bs' (new_msg (md_of sn m)) v' /\ same_msg sn same_bits zero_lax (fun _ => eq) m v v').
Proof.
  intros so sn strict m bs v Wo Wn O Pl UDo UDn B S D.
  assert (forall m, md_foreign (md_of sn m) = false) as Fn by (intros m'; rewrite <- (old_foreign _ _ O); apply Pl).
  destruct (C52_older_reader so sn (fun _ => eq) strict m bs v Wo Wn O) as (w & A & K); auto.
  - split; intros m'; rewrite (proj1 (Pl m')); discriminate.
  - intros m' x b F; rewrite (proj1 (Pl m')) in F; discriminate.
  - destruct K as (bs' & M & K); [|eauto].
    intros m' x _. rewrite (proj1 (Pl m')). intros _. apply Pl.
Qed.
Print Assumptions C52_older_reader_plain.

(** message New { int32 a = 1; Sub b = 2; repeated string c = 3; }
    message Sub { int32 a = 1; bytes b = 2; }   and before c and Sub.b were added. *)
Definition ev_new : schema := mkS
  [ mkM [ mkF 1 0 (TField LImplicit KInt32); mkF 2 1 (TField LOptional (KMessage 1));
          mkF 3 2 (TField (LRepeated false) KString) ] 3 true [] false false;
    mkM [ mkF 1 0 (TField LImplicit KInt32); mkF 2 1 (TField LImplicit KBytes) ] 2 true [] false false ] no_up.
Definition ev_old : schema := mkS
  [ mkM [ mkF 1 0 (TField LImplicit KInt32); mkF 2 1 (TField LOptional (KMessage 1)) ] 3 true [] false false;
    mkM [ mkF 1 0 (TField LImplicit KInt32) ] 2 true [] false false ] no_up.
Definition ev_bytes : list Z := [26; 1; 97; 8; 5; 18; 5; 18; 1; 7; 8; 1].
Definition ev_val : val := VMsg [VInt 5; VMsg [VInt 1; VBytes [7]] [] []; VList [VStr [97]]] [] [].
Ltac two m := destruct m as [|[|m]]; [| |unfold md_of in *; cbn in *; destruct m; cbn in *].
Example C52_nonvacuous : wf_schema ev_old = true /\ wf_schema ev_new = true /\ older ev_old ev_new /\ plain ev_old /\ up_dec_ok ev_old /\ up_dec_ok ev_new /\
  bytes_ok ev_bytes = true /\ small ev_bytes /\ decodes ev_new 0 ev_bytes (new_msg (md_of ev_new 0)) ev_val /\
  (exists bs', UnmarshalVT ev_old 0 ev_bytes (new_msg (md_of ev_old 0)) =
     Ok (VMsg [VInt 5; VMsg [VInt 1; VNil] [18; 1; 7] []; VNil] [26; 1; 97] []) /\
   MarshalVT ev_old true 0 (VMsg [VInt 5; VMsg [VInt 1; VNil] [18; 1; 7] []; VNil] [26; 1; 97] []) = Ok (Some bs') /\
   bs' <> ev_bytes).
Proof.
  split; [reflexivity|]. split; [reflexivity|]. split.
  { constructor; try reflexivity.
    - intros m. two m; reflexivity.
    - intros m. two m; discriminate.
    - intros m. two m; reflexivity.
    - intros m. two m; cbn; tauto.
    - intros m f g. two m; cbn; intros Hf Hg N E;
        repeat match goal with H : _ \/ _ |- _ => destruct H | H : False |- _ => destruct H end; subst; cbn in *; try discriminate; apply N; tauto.
    - intros m f. two m; cbn; intros Hf N;
        repeat match goal with H : _ \/ _ |- _ => destruct H | H : False |- _ => destruct H end; subst; reflexivity.
    - intros m. two m; reflexivity.
    - intros m. two m; split; reflexivity. }
  split. { intros m. two m; split; try reflexivity; intros f Hf; cbn in Hf; intuition subst; reflexivity. }
  split; [split; discriminate|]. split; [split; discriminate|]. split; [reflexivity|]. split; [reflexivity|]. split.
  { change ev_bytes with (([26] ++ [1; 97]) ++ ([8] ++ [5]) ++ ([18] ++ [5] ++ [18; 1; 7; 8; 1]) ++ []).
    eapply dec_own; [reflexivity| |intros f Hf R; repeat (destruct Hf as [<-|Hf]; [discriminate R|]); destruct Hf].
    eapply df_cons.
    { apply (dr_repeated ev_new 0 (mkF 3 2 (TField (LRepeated false) KString)) false KString [26] [1; 97] (VStr [97]));
        [cbn; tauto|reflexivity|tagged| |intros HH; now destruct HH]. apply (dv_str ev_new VNil [1] [97]); len. }
    eapply df_cons.
    { apply (dr_implicit ev_new 0 (mkF 1 0 (TField LImplicit KInt32)) KInt32 [8] [5] (VInt 5)); [now left|reflexivity|tagged|]. constructor. tagged. }
    eapply df_cons; [|apply df_nil].
    apply (dr_present ev_new 0 (mkF 2 1 (TField LOptional (KMessage 1))) LOptional (KMessage 1) [18] [5; 18; 1; 7; 8; 1] (VMsg [VInt 1; VBytes [7]] [] []));
      [cbn; tauto|reflexivity|tauto|tagged|].
    apply (dv_msg ev_new 1 (new_msg (md_of ev_new 1)) [5] [18; 1; 7; 8; 1]); [len|].
    change [18; 1; 7; 8; 1] with (([18] ++ [1; 7]) ++ ([8] ++ [1]) ++ []).
    eapply dec_own; [reflexivity| |intros f Hf R; repeat (destruct Hf as [<-|Hf]; [discriminate R|]); destruct Hf].
    eapply df_cons.
    { apply (dr_implicit ev_new 1 (mkF 2 1 (TField LImplicit KBytes)) KBytes [18] [1; 7] (VBytes [7])); [cbn; tauto|reflexivity|tagged|].
      apply (dv_bytes ev_new VNil [1] [7]); len. }
    eapply df_cons; [|apply df_nil].
    apply (dr_implicit ev_new 1 (mkF 1 0 (TField LImplicit KInt32)) KInt32 [8] [1] (VInt 1)); [now left|reflexivity|tagged|]. constructor. tagged. }
  eexists. split; [vm_compute; reflexivity|]. split; [vm_compute; reflexivity|]. vm_compute. congruence.
Qed.

(** A member added to a oneof that existed before: the older program moves the record
    of the added member, which it does not know, behind that of the member it knows;
    afterwards the added member wins. *)
Definition one_new : schema := mkS
  [ mkM [ mkF 1 0 (TField LOneof KInt32); mkF 2 0 (TField LOneof KInt32) ] 1 true [] false false ] no_up.
Definition one_old : schema := mkS [ mkM [ mkF 1 0 (TField LOneof KInt32) ] 1 true [] false false ] no_up.
Theorem C52_added_member_refuted : exists so sn m bs v w bs' v',
  wf_schema so = true /\ wf_schema sn = true /\ plain so /\ plain sn /\
  (forall m f, In f (md_fields (md_of so m)) -> In f (md_fields (md_of sn m))) /\
  (forall m, md_keep (md_of so m) = true) /\
  accepts sn m bs (new_msg (md_of sn m)) v /\ accepts so m bs (new_msg (md_of so m)) w /\
  MarshalVT so true m w = Ok (Some bs') /\ accepts sn m bs' (new_msg (md_of sn m)) v' /\
  ~ same_msg sn same_bits zero_lax (fun _ => eq) m v v'.
Proof.
  exists one_old, one_new, 0%nat, [16; 9; 8; 5], (VMsg [VOneof 1 (VInt 5)] [] []), (VMsg [VOneof 1 (VInt 5)] [16; 9] []), [8; 5; 16; 9], (VMsg [VOneof 2 (VInt 9)] [] []).
  split; [reflexivity|]. split; [reflexivity|].
  split. { intros m. two m; split; try reflexivity; intros f Hf; cbn in Hf; intuition subst; reflexivity. }
  split. { intros m. two m; split; try reflexivity; intros f Hf; cbn in Hf; intuition subst; reflexivity. }
  split; [intros m; two m; cbn; tauto|]. split; [intros m; two m; reflexivity|].
  split; [vm_compute; reflexivity|]. split; [vm_compute; reflexivity|]. split; [vm_compute; reflexivity|]. split; [vm_compute; reflexivity|].
  intros S. inversion S as [? ? ? ? ? ? ? F _]; subst. specialize (F (mkF 1 0 (TField LOneof KInt32)) ltac:(cbn; tauto)).
  inversion F as [? ? ? ? Q|? ? ? ? Q|? ? ? Q|? ? ? ? ? Q L|? ? ? ? ? Q|? ? ? ? ? ? Q|? ? ? ? Q N1 N2|? ? ? ? Q Sv]; subst; try discriminate Q.
  - injection Q as <- <-. destruct L; discriminate.
  - exact (N1 _ eq_refl).
Qed.
Print Assumptions C52_added_member_refuted.
