(** The code of GenMarshal.v obeys the rules of GoTypes.v. *)
From Coq Require Import ZArith List Bool String Arith Lia.
From Verif Require Import Base Schema Value Helpers Typing Marshal GoSyntax GoMarshal GenSize GenMarshal GenSizeFacts GoTypes GenTypes GenTypesFacts.
Import ListNotations.
Open Scope string_scope.
Open Scope Z_scope.
Open Scope list_scope.

Section Lists.
Variable sc : schema.
Variable dp : nat -> dispatch.
Variable wrap : bool.
Variable declared : string -> bool.
Notation mcheck := (mcheck sc dp wrap declared).

Lemma mk_nil R sw start G : mcheck R sw start G (mblock []) = Some (G, []).
Proof. reflexivity. Qed.
Lemma mk_cons R sw start G a l G1 G2 u v : mcheck R sw start G a = Some (G1, u) -> mcheck R sw start G1 (mblock l) = Some (G2, v) ->
  mcheck R sw start G (mblock (a :: l)) = Some (G2, u ++ v).
Proof. intros A B. cbn. rewrite A, B. reflexivity. Qed.
Lemma mk_app R sw start G a l G1 G2 u v : mcheck R sw start G (mblock a) = Some (G1, u) -> mcheck R sw start G1 (mblock l) = Some (G2, v) ->
  mcheck R sw start G (mblock (a ++ l)) = Some (G2, u ++ v).
Proof.
  revert G u. induction a as [|s a IH]; intros G u A B.
  - cbn in A. injection A as <- <-. exact B.
  - cbn in A. destruct (mcheck R sw start G s) as [[G0 u0]|] eqn:E; [|discriminate].
    destruct (mcheck R sw start G0 (mblock a)) as [[G3 u3]|] eqn:F; [|discriminate]. injection A as -> <-.
    cbn [app]. rewrite <- app_assoc. eapply mk_cons; [exact E|]. eapply IH; eassumption.
Qed.

Lemma key_bytes_small fuel : forall x, 0 <= x -> Forall (fun b => 0 <= b < 256) (key_bytes fuel x).
Proof.
  induction fuel as [|fuel IH]; intros x H; [constructor|]. cbn [key_bytes]. destruct (127 <? x) eqn:E.
  - constructor.
    + split; [apply Z.lor_nonneg; split; [lia|apply Z.land_nonneg; lia]|].
      change 127 with (Z.ones 7). rewrite Z.land_ones by lia. assert (0 <= x mod 2 ^ 7 < 128) by (apply Z.mod_pos_bound; lia).
      destruct (Z.eq_dec (x mod 2 ^ 7) 0) as [->|N]; [cbn; lia|].
      change 256 with (2 ^ 8). apply Z.log2_lt_pow2; [apply Z.le_neq; split; [apply Z.lor_nonneg; lia|intros Q; symmetry in Q; apply Z.lor_eq_0_iff in Q; lia]|].
      rewrite Z.log2_lor by lia. apply Z.max_lub_lt; [reflexivity|]. apply Z.log2_lt_pow2; lia.
    + apply IH. apply Z.shiftr_nonneg. exact H.
  - apply Z.ltb_ge in E. constructor; [lia|constructor].
Qed.

(** The variables read by the statements that write a key. *)
Definition key_reads (G : ctx) (num wt : Z) : list nat :=
  flat_map (fun _ => use G "dAtA" ++ use G "i") (rev (key_bytes 5 (Z.lor (u32 (Z.shiftl (u32 num) 3)) (u32 wt)))).

Lemma mk_key R sw start G num wt : has_int G "i" = true -> has_buffer G = true ->
  mcheck R sw start G (mblock (g_key num wt)) = Some (G, key_reads G num wt).
Proof.
  intros I B. unfold g_key, key_reads.
  assert (F : Forall (fun b => 0 <= b < 256) (rev (key_bytes 5 (Z.lor (u32 (Z.shiftl (u32 num) 3)) (u32 wt))))).
  { apply Forall_rev, key_bytes_small. apply Z.lor_nonneg. split; apply Z.mod_pos_bound; reflexivity. }
  induction F as [|b l Hb F IH]; [reflexivity|]. cbn [flat_map app].
  eapply mk_cons with (u := []); [apply mk_dec; exact I|]. eapply mk_cons; [|exact IH].
  rewrite mk_put; [cbn [reads]; rewrite app_nil_r; reflexivity|]. rewrite I, B. unfold gives. cbn.
  apply andb_true_intro. split; [apply Z.leb_le|apply Z.ltb_lt]; lia.
Qed.
End Lists.

Ltac shut := unfold close; cbn [List.length Nat.sub seq forallb app];
  repeat (cbn [existsb app Nat.eqb orb andb]; rewrite ?existsb_app, ?filter_app, ?orb_true_r); cbn [andb]; reflexivity.
Ltac lf S := lazymatch goal with
  | |- close _ _ = _ => first [leaf S | unfold use, bind; cbn [reads use find_var String.eqb Ascii.eqb Bool.eqb List.length append]; shut]
  | |- _ \/ _ => first [left; reflexivity | right; reflexivity]
  | _ => leaf S end.
Ltac mk S := lazymatch goal with |- mcheck _ _ _ _ _ _ _ _ ?s = _ => lazymatch s with
  | MSkip => eapply mk_skip
  | MSeq _ _ => eapply mk_seq; [mk S|mk S]
  | mblock (g_key _ _) => eapply mk_key; [lf S|lf S]
  | mblock (_ ++ _) => eapply mk_app; [mk S|mk S]
  | mblock (_ :: _) => eapply mk_cons; [mk S|mk S]
  | mblock [] => eapply mk_nil
  | MDo _ => eapply mk_do; ck S
  | MSub _ => eapply mk_sub; lf S
  | MDec => eapply mk_dec; lf S
  | MPut _ _ => eapply mk_put; lf S
  | MInc _ => eapply mk_inc; [lf S|lf S]
  | MShr _ => eapply mk_shr; [lf S|lf S]
  | MFixed 8 _ => eapply mk_fix8; lf S
  | MFixed 4 _ => eapply mk_fix4; lf S
  | MCopy _ => eapply mk_copy; [lf S|lf S|lf S]
  | MVarint _ => eapply mk_varint; lf S
  | MIf _ _ _ => eapply mk_if; [lf S|eapply mk_blk; [mk S|lf S]|eapply mk_blk; [mk S|lf S]]
  | MDown _ _ => eapply mk_down; [lf S|eapply mk_blk; [mk S|lf S]|lf S]
  | MRange _ _ _ => eapply mk_range; [lf S|eapply mk_blk; [mk S|lf S]|lf S]
  | MKeys _ _ => eapply mk_keys; [lf S|eapply mk_blk; [mk S|lf S]|lf S]
  | MWhile _ _ => eapply mk_while; [lf S|lf S|eapply mk_blk; [mk S|lf S]]
  | MCall _ _ _ _ => eapply mk_call; [lf S|lf S|lf S]
  | MEncode _ => eapply mk_encode; [lf S|lf S]
  | MAssert _ _ _ _ _ _ => eapply mk_assert; [lf S|lf S|eapply mk_blk; [mk S|lf S]|eapply mk_blk; [mk S|lf S]|lf S]
  | MIs _ _ _ _ => eapply mk_is; [lf S|lf S|eapply mk_blk; [mk S|lf S]|lf S]
  | MMake => eapply mk_make; lf S
  | MTail _ _ => eapply mk_tail; [lf S|lf S]
  | MReturn _ _ => eapply mk_return; lf S
  end end.

Ltac un := lazy beta iota zeta delta [g_field g_tagged g_value g_item g_packed g_backward g_size g_check g_fixed64 g_fixed32 g_bool g_bits g_zigzag g_varint g_put7 g_last
   g_forward has_message is_pointer g_set classify f_ty f_num f_slot fst snd].

Section Marshal.
Variable sc : schema.
Variable dp : nat -> dispatch.
Variable wrap : bool.
Variable declared : string -> bool.
Variable strict : bool.
Hypothesis W : wf_schema sc = true.
Variable m : nat.
Hypothesis Hm : (m < List.length (sc_msgs sc))%nat.
Hypothesis Hw : if wrap then forall m', dp m' <> DLocal else dp m = DLocal.
Hypothesis D : declared "SizeVT" = true.
Hypothesis Hn : wrap = true -> dp m = DKnown.
Hypothesis DM : declared (meth_sized strict) = true.

Definition GW (t : gtyp) : ctx := [("i", YInt); ("dAtA", YBytes); ("m", t)].
Definition GM (t : gtyp) : ctx := ("l", YInt) :: GW t.
Definition R2 : list gtyp := [YInt; YErr].
Definition mstep_ok (G : ctx) (s : mstmt) : Prop := exists u, mcheck sc dp wrap declared R2 None 0 G s = Some (G, u).

Lemma marshal_plain r c num s lab k : struct_of r = Some m -> slot_ty sc m s = Some (field_ty (TField lab k)) ->
  wf_type (List.length (sc_msgs sc)) (TField lab k) = true -> lab <> LOneof ->
  mstep_ok (GM r) (fst (g_field dp strict c (mkF num s (TField lab k)))).
Proof.
  intros R S T O. unfold mstep_ok, GM, GW.
  destruct lab as [| | |p|]; try contradiction; try destruct p; destruct k; cbn in T; rewrite ?andb_false_r in T; try discriminate T; clear T.
  all: try match goal with _ : context [KMessage ?a] |- _ => destruct (dp a) eqn:E; [| pose proof (not_wrapped dp wrap m Hw a E) as Ew |] end.
  all: try match goal with _ : context [KGroup ?a] |- _ => destruct (dp a) eqn:E; [| pose proof (not_wrapped dp wrap m Hw a E) as Ew |] end.
  all: un; try rewrite E; lazy beta iota zeta.
  all: eexists; mk S.
Qed.

Lemma marshal_in r c num s k : r = YPtr (YWrap m num) \/ r = YPtr (YOwnWrap m num) -> in_ty sc m num = Some (kind_ty k) -> is_group k = false ->
  mstep_ok (GW r) (fst (g_field dp strict c (mkF num s (TField LOneof k)))).
Proof.
  intros R S K. unfold mstep_ok, GW.
  destruct k; try discriminate K.
  all: try match goal with _ : context [KMessage ?a] |- _ => destruct (dp a) eqn:E; [| pose proof (not_wrapped dp wrap m Hw a E) as Ew |] end.
  all: un; try rewrite E; lazy beta iota zeta.
  all: destruct R as [-> | ->]; eexists; mk S.
Qed.

(** Inside the loop over a map. *)
Definition GK (r t1 t2 : gtyp) : ctx := ("baseI", YInt) :: ("v", t2) :: ("k", t1) :: GM r.
Definition GE (r t1 t2 : gtyp) : ctx := ("err", YErr) :: ("size", YInt) :: GK r t1 t2.

Lemma map_value r t1 vk : is_group vk = false ->
  exists G u, (G = GK r t1 (kind_ty vk) \/ G = GE r t1 (kind_ty vk))
    /\ mcheck sc dp wrap declared R2 None 5 (GK r t1 (kind_ty vk)) (mblock (g_value dp strict vk (EVar "v"))) = Some (G, u) /\ In 5%nat u
    /\ (G = GE r t1 (kind_ty vk) -> In 7%nat u /\ In 8%nat u).
Proof.
  intros V. assert (S : True = True) by reflexivity. unfold GE, GK, GM, GW.
  destruct vk; try discriminate V.
  all: try match goal with |- context [KMessage ?a] => destruct (dp a) eqn:E; [| pose proof (not_wrapped dp wrap m Hw a E) as Ew |] end.
  all: un; try rewrite E; lazy beta iota zeta.
  all: eexists; eexists; split; [|split; [mk S|]].
  all: lazymatch goal with |- _ \/ _ => first [left; reflexivity | right; reflexivity] | _ => idtac end.
  all: cbn; split; [tauto|first [intros _; tauto | discriminate]].
Qed.

Lemma map_key r t2 G kk : key_kind kk = true -> G = GK r (kind_ty kk) t2 \/ G = GE r (kind_ty kk) t2 ->
  exists u, mcheck sc dp wrap declared R2 None 5 G (mblock (g_value dp strict kk (EVar "k"))) = Some (G, u) /\ In 4%nat u.
Proof.
  intros K [-> | ->]; assert (S : True = True) by reflexivity; unfold GE, GK, GM, GW; destruct kk; try discriminate K.
  all: un; eexists; split; [mk S|cbn; tauto].
Qed.

Lemma in_existsb n u : In n u -> existsb (Nat.eqb n) u = true.
Proof. intros H. apply existsb_exists. exists n. split; [exact H|apply Nat.eqb_refl]. Qed.

Lemma marshal_map r c num s kk vk : struct_of r = Some m -> slot_ty sc m s = Some (YMap (kind_ty kk) (kind_ty vk)) ->
  key_kind kk = true -> is_group vk = false ->
  mstep_ok (GM r) (fst (g_field dp strict c (mkF num s (TMap kk vk)))).
Proof.
  intros R S K V. unfold mstep_ok. cbn [g_field f_ty f_num f_slot fst].
  destruct (map_value r (kind_ty kk) vk V) as [G [u [HG [U [U5 UE]]]]].
  destruct (map_key r (kind_ty vk) G kk K HG) as [v [V' V4]].
  assert (Hi : has_int G "i" = true) by (destruct HG as [-> | ->]; reflexivity).
  assert (Hb : has_buffer G = true) by (destruct HG as [-> | ->]; reflexivity).
  assert (B : exists w, mblk sc dp wrap declared R2 (("k", kind_ty kk) :: GM r)
     (mblock ([MDo (SDef "v" (EIdx (ESel (EVar "m") (MSlot s)) (EVar "k"))); MDo (SDef "baseI" (EVar "i"))]
         ++ g_value dp strict vk (EVar "v") ++ g_key 2 (ProtoWireType vk)
         ++ g_value dp strict kk (EVar "k") ++ g_key 1 (ProtoWireType kk)
         ++ [g_varint (ESub (EVar "baseI") (EVar "i"))] ++ g_key num 2)) = Some w /\ In 4%nat w).
  { assert (X : exists w, mcheck sc dp wrap declared R2 None 5 (("k", kind_ty kk) :: GM r)
     (mblock ([MDo (SDef "v" (EIdx (ESel (EVar "m") (MSlot s)) (EVar "k"))); MDo (SDef "baseI" (EVar "i"))]
         ++ g_value dp strict vk (EVar "v") ++ g_key 2 (ProtoWireType vk)
         ++ g_value dp strict kk (EVar "k") ++ g_key 1 (ProtoWireType kk)
         ++ [g_varint (ESub (EVar "baseI") (EVar "i"))] ++ g_key num 2)) = Some (G, w) /\ In 4%nat w /\ In 5%nat w /\ In 6%nat w
         /\ (G = GE r (kind_ty kk) (kind_ty vk) -> In 7%nat w /\ In 8%nat w)).
    { eexists. split.
      - eapply mk_app.
        { eapply mk_cons; [apply mk_do; eapply ck_def with (t := kind_ty vk) (t' := kind_ty vk)|].
          - cbn. rewrite R, S. unfold guard. destruct kk; try discriminate K; cbn; reflexivity.
          - destruct vk; reflexivity.
          - reflexivity.
          - eapply mk_cons; [apply mk_do; eapply ck_def; reflexivity|eapply mk_nil]. }
        eapply mk_app; [exact U|]. eapply mk_app; [eapply mk_key; assumption|]. eapply mk_app; [exact V'|].
        eapply mk_app; [eapply mk_key; assumption|]. eapply mk_app; [|eapply mk_key; assumption].
        eapply mk_cons; [|eapply mk_nil]. unfold g_varint. apply mk_varint. rewrite Hi, Hb. destruct HG as [-> | ->]; reflexivity.
      - assert (I6 : In 6%nat (reads G (EU64 (ESub (EVar "baseI") (EVar "i"))))) by (destruct HG as [-> | ->]; cbn; tauto).
        repeat split; try (intros E; destruct (UE E)); rewrite ?in_app_iff; tauto. }
    destruct X as [w [X [X4 [X5 [X6 XE]]]]].
    exists (filter (fun i => Nat.ltb i 5) w). split.
    - unfold mblk. cbn [List.length GM GW]. rewrite X. unfold close.
      destruct HG as [HG | HG]; [rewrite HG|destruct (XE HG) as [X7 X8]; rewrite HG]; cbn [List.length GE GK GM GW Nat.sub seq forallb];
        rewrite ?(in_existsb _ _ X5), ?(in_existsb _ _ X6); [reflexivity|rewrite (in_existsb _ _ X7), (in_existsb _ _ X8); reflexivity].
    - apply filter_In. split; [exact X4|reflexivity]. }
  destruct B as [w [B B4]].
  eexists. eapply mk_if.
  - unfold is_bool. cbn. rewrite R, S. reflexivity.
  - eapply mk_blk; [eapply mk_cons; [eapply mk_keys|eapply mk_nil]|].
    + cbn. rewrite R, S. reflexivity.
    + exact B.
    + unfold close. cbn [List.length GM GW Nat.sub seq forallb]. rewrite (in_existsb _ _ B4). reflexivity.
    + reflexivity.
  - reflexivity.
Qed.

Lemma mblock_ok G l : (forall s, In s l -> mstep_ok G s) -> mstep_ok G (mblock l).
Proof.
  induction l as [|s l IH]; intros H; [eexists; apply mk_nil|].
  destruct (H s) as [u U]; [now left|]. destruct IH as [v V]; [intros s' I; apply H; now right|].
  eexists. eapply mk_cons; eassumption.
Qed.

Lemma mcase_nums_ok l : mcase_nums (g_cases strict l) = map f_num l.
Proof. induction l as [|f l IH]; [reflexivity|]. cbn. rewrite IH. reflexivity. Qed.

Lemma mcases_ok r s l start : dp m = DKnown -> of_slot sc m s l ->
  exists u, mcheck sc dp wrap declared R2 (Some ("c", m, s)) start (GM r) (g_cases strict l) = Some (GM r, u) /\ (l <> [] -> In 4%nat u).
Proof.
  intros K. induction l as [|f l IH]; intros H.
  - exists []. split; [reflexivity|congruence].
  - destruct IH as [v [V _]]; [intros g I; apply H; now right|]. destruct (H f) as [I [O E]]; [now left|]. subst s.
    cbn [g_cases]. eexists. split.
    + eapply mk_case; [apply (implements_ok sc W m Hm f I O)| |exact V].
      unfold g_forward, g_check, GM, GW. eapply mk_blk; [mk K|lf K].
    + intros _. apply in_or_app. left. cbn. tauto.
Qed.

Lemma marshal_oneof r f : struct_of r = Some m -> In f (md_fields (md_of sc m)) -> is_oneof f = true -> mstep_ok (GM r) (g_oneof dp strict m (md_of sc m) (f_slot f)).
Proof.
  intros R I O. pose proof (slot_ok sc W m Hm f I) as S. rewrite O in S. unfold g_oneof, mstep_ok.
  set (l := filter _ _).
  destruct (is_known (dp m)) eqn:K.
  - assert (K' : dp m = DKnown) by (destruct (dp m); try discriminate K; reflexivity).
    destruct (mcases_ok r (f_slot f) l 4 K') as [u [U V]].
    { intros g G. apply filter_In in G. destruct G as [G F]. apply andb_prop in F. destruct F as [F Og]. apply Nat.eqb_eq in F. auto. }
    assert (Q : In 4%nat u).
    { apply V. intros N. assert (X : In f l) by (apply filter_In; rewrite Nat.eqb_refl, O; auto). rewrite N in X. destruct X. }
    eexists. eapply mk_switch; [unfold GM, GW; leaf S| |exact U|].
    + rewrite mcase_nums_ok. apply distinct_ok, pairwise_filter. pose proof (wf_m sc W m Hm) as M. unfold wf_msg in M. apply andb_prop in M. apply M.
    + unfold close. cbn [List.length GM GW Nat.sub seq forallb]. rewrite (in_existsb _ _ Q). reflexivity.
  - unfold GM, GW. unfold g_forward, g_check. eexists. mk S.
Qed.

Lemma marshal_member r f : struct_of r = Some m -> In f (md_fields (md_of sc m)) -> is_oneof f = true -> mstep_ok (GM r) (g_member dp strict m f).
Proof.
  intros R I O. pose proof (slot_ok sc W m Hm f I) as S. rewrite O in S. pose proof (implements_ok sc W m Hm f I O) as P. unfold g_member, mstep_ok, GM, GW.
  pose proof (not_wrapped dp wrap m Hw m) as NW.
  destruct (dp m) eqn:K; unfold is_known; lazy beta iota zeta.
  - unfold g_forward, g_check. eexists. mk S.
  - pose proof (NW eq_refl) as Ew. unfold g_forward, g_check. eexists. mk S.
  - exfalso. generalize Hw Hn. destruct wrap; [intros _ X; discriminate (X eq_refl)|intros X _; discriminate X].
Qed.

Lemma marshal_fields r l : struct_of r = Some m -> (forall f, In f l -> In f (md_fields (md_of sc m))) ->
  forall c s, In s (fst (g_fields dp strict m c l)) -> mstep_ok (GM r) s.
Proof.
  intros R. induction l as [|f l IH]; intros H c s; cbn [g_fields]; [intros []|].
  assert (H' : forall g, In g l -> In g (md_fields (md_of sc m))) by (intros g G; apply H; now right).
  pose proof (H f (or_introl eq_refl)) as F.
  destruct (is_oneof f) eqn:O.
  - intros I. assert (Q : s = g_member dp strict m f \/ In s (fst (g_fields dp strict m c l))).
    { revert I. clear. destruct strict; cbn [fst]; [intros [<-|I]; auto|auto]. }
    destruct Q as [-> |Q]; [apply marshal_member; assumption|exact (IH H' c s Q)].
  - cbn [fst]. intros [<-|I]; [|eapply IH; [exact H'|exact I]].
    pose proof (slot_ok sc W m Hm f F) as S. rewrite O in S. pose proof (wf_f sc W m Hm f F) as T.
    destruct f as [num s t]. cbn [f_slot f_ty] in *. destruct t as [lab k|kk vk].
    + apply marshal_plain; auto. intros ->. discriminate O.
    + cbn [wf_type] in T. apply andb_prop in T. destruct T as [T1 T2]. apply andb_prop in T1. destruct T1 as [T1 _]. apply marshal_map; auto. destruct vk; try reflexivity; discriminate T2.
Qed.

Lemma mreturns_end l e r : mreturns (mblock (l ++ [MReturn e r])) = true.
Proof.
  induction l as [|s l IH]; [reflexivity|]. cbn [app mblock mreturns]. destruct (mblock (l ++ [MReturn e r])) eqn:B; try exact IH.
  destruct l; discriminate B.
Qed.

Lemma insert_In f g l : In g (insert_field f l) <-> g = f \/ In g l.
Proof. induction l as [|h l IH]; cbn; [intuition|]. destruct (f_num f <=? f_num h); cbn; [intuition|]. rewrite IH. intuition. Qed.
Lemma sort_In g l : In g (sort_fields l) <-> In g l.
Proof. induction l as [|f l IH]; [reflexivity|]. unfold sort_fields. cbn [fold_right]. rewrite insert_In. unfold sort_fields in IH. rewrite IH. cbn. intuition. Qed.
Lemma slots_In s : forall l seen, In s (oneof_slots seen l) -> exists f, In f l /\ is_oneof f = true /\ f_slot f = s.
Proof.
  induction l as [|f l IH]; intros seen; cbn; [intros []|]. destruct (is_oneof f) eqn:O.
  - destruct (existsb _ _).
    + intros I. destruct (IH _ I) as [g [G X]]. exists g. auto.
    + intros [<-|I]; [exists f; auto|]. destruct (IH _ I) as [g [G X]]. exists g. auto.
  - intros I. destruct (IH _ I) as [g [G X]]. exists g. auto.
Qed.

Lemma end_ok G r : G = GM r \/ G = GW r -> mcheck sc dp wrap declared R2 None 0 G g_end = Some (G, [1; 2]%nat).
Proof. intros [-> | ->]; reflexivity. Qed.

Lemma marshal_message : (wrap = true -> md_keep (md_of sc m) = false) ->
  mcompiles sc dp wrap declared [("dAtA", YBytes); ("m", recv wrap m)] [YInt; YErr] (fst (g_sized dp strict m (md_of sc m))) = true.
Proof.
  intros K. assert (R : struct_of (recv wrap m) = Some m) by (unfold recv; destruct wrap; reflexivity).
  unfold mcompiles. replace (mreturns _) with true by (symmetry; unfold g_sized; cbn [fst]; rewrite !app_assoc; apply mreturns_end).
  unfold g_sized. cbn [fst].
  set (os := if strict then _ else _). set (fs := fst _).
  destruct (mblock_ok (GM (recv wrap m)) (g_unknown (md_of sc m) ++ os ++ fs)) as [u U].
  { intros s I. apply in_app_or in I. destruct I as [I|I]; [|apply in_app_or in I; destruct I as [I|I]].
    - unfold g_unknown in I. destruct (md_keep (md_of sc m)) eqn:Q; [|destruct I]. destruct I as [<-|[]].
      assert (Ew : wrap = false) by (destruct wrap; [specialize (K eq_refl); congruence|reflexivity]).
      assert (Hl : dp m = DLocal) by (generalize Hw; rewrite Ew; auto).
      unfold recv, GM, GW, mstep_ok. rewrite Ew. eexists. mk Hl.
    - assert (I' : In s (map (g_oneof dp strict m (md_of sc m)) (oneof_slots [] (rev (sort_fields (md_fields (md_of sc m))))))) by (revert I; unfold os; clear; destruct strict; [intros []|auto]).
      clear I. rename I' into I. apply in_map_iff in I. destruct I as [s' [<- I]]. apply slots_In in I. destruct I as [f [F [O <-]]].
      apply marshal_oneof; [exact R| |exact O]. rewrite <- in_rev, sort_In in F. exact F.
    - eapply marshal_fields; [exact R| |exact I]. intros f F. rewrite <- in_rev, sort_In in F. exact F. }
  assert (Eq : forall pre, pre ++ g_unknown (md_of sc m) ++ os ++ fs ++ [g_end] = pre ++ (g_unknown (md_of sc m) ++ os ++ fs) ++ [g_end]) by (intros pre; rewrite <- !app_assoc; reflexivity).
  rewrite Eq.
  match goal with |- match close ?P ?c with _ => _ end = true => assert (X : exists w, c = Some (GM (recv wrap m), [0; 1; 2; 3]%nat ++ w)) end.
  { eexists. erewrite mk_app; [|eapply mk_cons; [eapply mk_if; [reflexivity|reflexivity|reflexivity]|eapply mk_cons; [eapply mk_do, ck_def; reflexivity|
       eapply mk_cons; [eapply mk_do, ck_blank; reflexivity|eapply mk_cons; [eapply mk_do, ck_var; reflexivity|eapply mk_cons; [eapply mk_do, ck_blank; reflexivity|eapply mk_nil]]]]]|
     eapply mk_app; [exact U|eapply mk_cons; [apply end_ok with (r := recv wrap m); now left|eapply mk_nil]]].
    reflexivity. }
  destruct X as [w ->]. reflexivity.
Qed.

Lemma marshal_wrapper c f : In f (md_fields (md_of sc m)) -> is_oneof f = true ->
  mcompiles sc dp wrap declared [("dAtA", YBytes); ("m", recv_in wrap m (f_num f))] [YInt; YErr] (fst (g_wrapper dp strict c f)) = true.
Proof.
  intros I O. pose proof (in_ok sc W m Hm f I O) as S. pose proof (wf_f sc W m Hm f I) as T.
  destruct f as [num s t]. cbn [f_num f_ty] in *. destruct t as [lab k|kk vk]; [|discriminate O]. destruct lab; try discriminate O.
  destruct (marshal_in (recv_in wrap m num) c num s k) as [u U].
  { unfold recv_in. destruct wrap; auto. }
  { exact S. }
  { cbn in T. apply andb_prop in T. destruct T as [_ T]. destruct k; try reflexivity; discriminate T. }
  unfold mcompiles, g_wrapper. set (b := fst (g_field _ _ _ _)) in *. cbn [fst].
  match goal with |- match close ?P ?c with _ => _ end = true => assert (X : exists w, c = Some (GW (recv_in wrap m num), w ++ [1; 2]%nat)) end.
  { eexists. erewrite mk_cons; [|eapply mk_do, ck_def; reflexivity|eapply mk_cons; [exact U|eapply mk_cons; [apply end_ok with (r := recv_in wrap m num); now right|eapply mk_nil]]].
    rewrite app_nil_r. rewrite app_assoc. reflexivity. }
  destruct X as [w ->]. unfold close. cbn [List.length GW Nat.sub seq forallb]. rewrite existsb_app. cbn. rewrite orb_true_r. reflexivity.
Qed.

(** The methods around them. *)
Lemma marshal_to r : (forall g h, declared h = true -> has_method dp wrap declared r g h = true) ->
  mcompiles sc dp wrap declared [("dAtA", YBytes); ("m", r)] [YInt; YErr] (g_to strict) = true.
Proof.
  intros H. pose proof (H GSize "SizeVT" D) as A. pose proof (H GSized _ DM) as B. revert B. unfold mcompiles, g_to. generalize (meth_sized strict) as h. intros h B.
  erewrite mk_cons; [|eapply mk_do, ck_def; [cbn; rewrite A; reflexivity|reflexivity|reflexivity]|
    eapply mk_cons; [eapply mk_tail; [reflexivity|rewrite B; reflexivity]|eapply mk_nil]]. reflexivity.
Qed.

Lemma marshal_vt t : (forall g h, declared h = true -> has_method dp wrap declared (YPtr t) g h = true) ->
  mcompiles sc dp wrap declared [("err", YErr); ("dAtA", YBytes); ("m", YPtr t)] [YBytes; YErr] (g_marshal strict) = true.
Proof.
  intros H. pose proof (H GSize "SizeVT" D) as A. pose proof (H GSized _ DM) as B. revert B. unfold mcompiles, g_marshal. generalize (meth_sized strict) as h. intros h B.
  erewrite mk_cons; [|eapply mk_if; reflexivity|eapply mk_cons; [
    eapply mk_do, ck_def; [unfold guard; cbn [ty find_var var_ty String.eqb Ascii.eqb Bool.eqb]; rewrite A; reflexivity|reflexivity|reflexivity]|
    eapply mk_cons; [eapply mk_make; reflexivity|eapply mk_cons; [eapply mk_call; [reflexivity|rewrite B; reflexivity|reflexivity]|
    eapply mk_cons; [eapply mk_if; reflexivity|eapply mk_cons; [eapply mk_return; reflexivity|eapply mk_nil]]]]]]. reflexivity.
Qed.

Lemma recv_methods g h : declared h = true -> has_method dp wrap declared (recv wrap m) g h = true.
Proof. intros E. unfold recv. generalize Hw. destruct wrap; intros X; cbn; [exact E|]. unfold is_local. rewrite X. exact E. Qed.
Lemma recv_in_methods num g h : declared h = true -> has_method dp wrap declared (recv_in wrap m num) g h = true.
Proof. intros E. unfold recv_in. generalize Hw. destruct wrap; intros X; cbn; [exact E|]. unfold is_local. rewrite X. exact E. Qed.
End Marshal.
