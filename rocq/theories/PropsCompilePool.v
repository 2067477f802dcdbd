(** C76: the printed ResetVT and ReturnToVTPool obey the static rules of Go (GoTypesPool.v;
    /repo/features/pool/pool.go:44-102 prints them). *)
From Coq Require Import ZArith List Bool String Arith Lia.
From Verif Require Import Base Schema Value Typing GoSyntax GoMarshal GenSize GoPool GenPool GoTypes GenTypes GoTypesPool Ex.
Import ListNotations.
Open Scope string_scope.
Open Scope Z_scope.
Open Scope list_scope.

Section Pool.
Variable sc : schema.
Variable pools pool : nat -> bool.
Variable m : nat.
Hypothesis W : wf_schema sc = true.
Hypothesis Hm : (m < List.length (sc_msgs sc))%nat.
Hypothesis Hp : forall a, pool a = true -> pools a = true.
Hypothesis Hs : pools m = true.
Let r := YPtr (YMsg m).
Let ck := pcheck sc pools m r None None.

Lemma block_app a b V V1 u V2 v : ck V (pblock a) = Some (V1, u) -> ck V1 (pblock b) = Some (V2, v) -> exists w, ck V (pblock (a ++ b)) = Some (V2, w) /\ forall x, In x v -> In x w.
Proof.
  revert V V1 u. induction a as [|s a IH]; intros V V1 u A B.
  - injection A as -> <-. exists v. auto.
  - unfold ck in A. cbn [pblock app pcheck] in A. destruct (pcheck _ _ _ _ _ _ V s) as [[V3 w]|] eqn:E; [|discriminate A].
    destruct (pcheck _ _ _ _ _ _ V3 (pblock a)) as [[V4 x]|] eqn:F; [|discriminate A]. injection A as <- <-.
    destruct (IH V3 V4 x F B) as (y & Y & I). exists (w ++ y). split.
    + unfold ck. cbn [pblock app pcheck]. rewrite E. fold ck. rewrite Y. reflexivity.
    + intros z Z. apply in_or_app. auto.
Qed.

Lemma psaved_fresh i V : (forall x, In x V -> (fst x < i)%nat) -> psaved i V = None.
Proof.
  induction V as [|[j t] V IH]; intros H; [reflexivity|]. cbn [psaved].
  pose proof (H (j, t) (or_introl eq_refl)) as L. cbn [fst] in L. destruct (Nat.eqb_spec i j); [lia|]. apply IH. intros x I. apply H. right. exact I.
Qed.

(** One field. *)
Lemma field_step f i V p s : In f (md_fields (md_of sc m)) -> (forall x, In x V -> (fst x < i)%nat) -> gen_reset_field pool i f = (p, s) ->
  exists u t, ck V (pblock p) = Some ((if s then [(i, YSlice t)] else []) ++ V, u) /\ (s = true -> pmember sc r (f_slot f) = Some (YSlice t)).
Proof.
  intros I F. pose proof (slot_ok sc W m Hm f I) as S. assert (N := psaved_fresh i V F).
  assert (P : pmember sc r (f_slot f) = slot_ty sc m (f_slot f)) by reflexivity.
  assert (Q : forall a b, pool a = b -> phas pools (YPtr (YMsg a)) (if b then HResetVT else HReset) a = true).
  { intros a b E. destruct b; cbn [phas]; unfold msg_eqb; rewrite Nat.eqb_refl; [rewrite (Hp a E)|]; reflexivity. }
  assert (R : forall a, pool a = true -> phas pools (YPtr (YMsg a)) HReturn a = true).
  { intros a E. cbn [phas]. unfold msg_eqb. rewrite Nat.eqb_refl, (Hp a E). reflexivity. }
  assert (L : Nat.eqb (List.length V) (List.length V) = true) by apply Nat.eqb_refl.
  assert (C : forall k, (exists a, kind_ty k = YPtr (YMsg a) /\ (classify k = CMsg a \/ classify k = CGrp a))
                        \/ (kind_ty k = YBytes /\ classify k = CByt)
                        \/ (forall a, classify k <> CMsg a /\ classify k <> CGrp a) /\ classify k <> CByt).
  { intros k. destruct k; cbn; eauto; right; right; repeat split; discriminate. }
  unfold ck. destruct (f_ty f) as [l k|kk vk] eqn:T; unfold gen_reset_field; rewrite T.
  2:{ intros G. injection G as <- <-. exists [], YU8. split; [reflexivity|discriminate]. }
  assert (O : is_oneof f = match l with LOneof => true | _ => false end) by (unfold is_oneof; rewrite T; reflexivity).
  assert (A : match k with KBytes | KMessage _ | KGroup _ => pmember sc r (f_slot f) = Some (kind_ty k) | _ => True end ->
    (match classify k with CMsg m' | CGrp m' => (if pool m' then [PCall (PField (f_slot f)) m' HReturn] else [], false) | CByt => ([PSave i (f_slot f)], true) | _ => ([], false) end) = (p, s) ->
    exists u t, pcheck sc pools m r None None V (pblock p) = Some ((if s then [(i, YSlice t)] else []) ++ V, u) /\ (s = true -> pmember sc r (f_slot f) = Some (YSlice t))).
  { clear S O C. intros S G.
    destruct k as [| | | | | | | | |a|a| | | | | | |]; cbn [classify kind_ty] in G, S; try (injection G as <- <-; exists [], YU8; split; [reflexivity|discriminate]).
    - injection G as <- <-. destruct (pool a) eqn:E; exists [], YU8; (split; [|discriminate]); [|reflexivity]. cbn [pblock pcheck ptarget_ty]. rewrite S, (R a E). reflexivity.
    - injection G as <- <-. destruct (pool a) eqn:E; exists [], YU8; (split; [|discriminate]); [|reflexivity]. cbn [pblock pcheck ptarget_ty]. rewrite S, (R a E). reflexivity.
    - injection G as <- <-. exists [], YU8. split; [|intros _; exact S]. cbn [pblock pcheck]. rewrite S, N. reflexivity. }
  destruct l as [| | |b|]; rewrite O, <- P in S; cbn [field_ty] in S.
  - apply A. destruct k; auto.
  - apply A. destruct k; auto.
  - apply A. destruct k; auto.
  - clear A. destruct (C k) as [(a & Y & K)|[(Y & K)|[K1 K2]]].
    + replace (match classify k with CMsg m' | CGrp m' => [PRange (f_slot f) (PCall PElem m' (if pool m' then HResetVT else HReset))] | CByt | CStr => [PClear (f_slot f)] | _ => [] end)
        with [PRange (f_slot f) (PCall PElem a (if pool a then HResetVT else HReset))] by (destruct K as [-> | ->]; reflexivity).
      intros G. injection G as <- <-. rewrite Y in S. exists [NElem], (YPtr (YMsg a)). split; [|intros _; exact S].
      cbn [app pblock pcheck ptarget_ty ptarget_use]. rewrite S, (Q a _ eq_refl), L. cbn [andb pread existsb pname_eqb orb app]. rewrite N. reflexivity.
    + rewrite K. intros G. injection G as <- <-. exists [], (kind_ty k). split; [|intros _; exact S].
      cbn [app pblock pcheck]. rewrite S, N. reflexivity.
    + intros G. exists [], (kind_ty k). destruct (classify k) as [| | | | | | |a|a] eqn:K;
        try (injection G as <- <-; split; [cbn [app pblock pcheck]; rewrite S, N; reflexivity|intros _; exact S]); exfalso;
        [apply (proj1 (K1 a)); reflexivity|apply (proj2 (K1 a)); reflexivity].
  - clear A. pose proof (in_ok sc W m Hm f I O) as J. rewrite T in J. cbn [field_ty] in J. pose proof (implements_ok sc W m Hm f I O) as M.
    destruct (C k) as [(a & Y & K)|[(Y & K)|[K1 K2]]].
    + replace (match classify k with CMsg m' | CGrp m' => (if pool m' then [PIfOneof (f_slot f) (f_num f) (PCall (PIn (f_slot f) (f_num f)) m' HReturn)] else [], false) | _ => ([], false) end)
        with ((if pool a then [PIfOneof (f_slot f) (f_num f) (PCall (PIn (f_slot f) (f_num f)) a HReturn)] else []), false) by (destruct K as [-> | ->]; reflexivity).
      intros G. injection G as <- <-. rewrite Y in J. destruct (pool a) eqn:E; [|exists [], YU8; split; [reflexivity|discriminate]].
      exists [NOneof], YU8. split; [|discriminate]. cbn [pblock pcheck ptarget_ty ptarget_use]. rewrite S, M, Z.eqb_refl, J, (R a E), L. reflexivity.
    + rewrite K. intros G. injection G as <- <-. exists [], YU8. split; [reflexivity|discriminate].
    + intros G. exists [], YU8. destruct (classify k) as [| | | | | | |a|a] eqn:K; try (injection G as <- <-; split; [reflexivity|discriminate]); exfalso;
        [apply (proj1 (K1 a)); reflexivity|apply (proj2 (K1 a)); reflexivity].
Qed.

(** [V']: the variables of [V] and those named in [l], with the types of the members. *)
Definition named_by (l : list (nat * nat)) (V V' : list (nat * gtyp)) : Prop :=
  (forall x, In x V' -> In x V \/ exists s, In (s, fst x) l)
  /\ (forall e, In e l -> exists t, pmember sc r (fst e) = Some (YSlice t) /\ psaved (snd e) V' = Some (YSlice t))
  /\ (forall i t, psaved i V = Some t -> psaved i V' = Some t).

(** All fields: the members saved are those to be restored. *)
Lemma fields_step fs : (forall f, In f fs -> In f (md_fields (md_of sc m))) -> forall i V p l, (forall x, In x V -> (fst x < i)%nat) ->
  gen_reset_fields pool i fs = (p, l) -> exists V' u, ck V (pblock p) = Some (V', u) /\ named_by l V V'.
Proof.
  induction fs as [|f fs IH]; intros I i V p l F G; cbn [gen_reset_fields] in G.
  - injection G as <- <-. exists V, []. split; [reflexivity|]. split; [auto|]. split; [contradiction|auto].
  - destruct (gen_reset_field pool i f) as [p1 s] eqn:E. destruct (gen_reset_fields pool (if s then S i else i) fs) as [p2 l2] eqn:E2. injection G as <- <-.
    destruct (field_step f i V p1 s (I f (or_introl eq_refl)) F E) as (u1 & t & C1 & S1).
    assert (F' : forall x, In x ((if s then [(i, YSlice t)] else []) ++ V) -> (fst x < if s then S i else i)%nat).
    { intros x X. apply in_app_or in X. destruct s; cbn in X; [destruct X as [[<-|[]]|X]; [cbn; lia|apply F in X; lia]|destruct X as [[]|X]; auto]. }
    destruct (IH (fun g H => I g (or_intror H)) _ _ p2 l2 F' E2) as (V' & u2 & C2 & N1 & N2 & N3).
    destruct (block_app p1 p2 V _ u1 V' u2 C1 C2) as (w & C3 & _). exists V', w. split; [exact C3|].
    assert (K : forall j y, psaved j V = Some y -> psaved j ((if s then [(i, YSlice t)] else []) ++ V) = Some y).
    { intros j y H. destruct s; [|exact H]. cbn [app psaved]. destruct (Nat.eqb_spec j i) as [->|]; [|exact H]. rewrite (psaved_fresh i V F) in H. discriminate. }
    split; [|split].
    + intros x X. destruct (N1 x X) as [Y|[y Y]].
      * apply in_app_or in Y. destruct Y as [Y|Y]; [|auto]. destruct s; [|destruct Y]. destruct Y as [<-|[]]. right. exists (f_slot f). left. reflexivity.
      * right. exists y. destruct s; [right|]; exact Y.
    + intros e X. destruct s; [|apply N2; exact X]. destruct X as [<-|X]; [|apply N2; exact X].
      exists t. split; [apply S1; reflexivity|]. apply N3. cbn [app psaved snd]. rewrite Nat.eqb_refl. reflexivity.
    + intros j y H. apply N3, K, H.
Qed.


(** Restoring them reads every variable. *)
Lemma restore_step V l : (forall e, In e l -> exists t, pmember sc r (fst e) = Some (YSlice t) /\ same t t = true /\ psaved (snd e) V = Some (YSlice t)) ->
  exists u, ck V (pblock (map (fun e => PRestore (fst e) (snd e)) l)) = Some (V, u) /\ forall e, In e l -> In (NSaved (snd e)) u.
Proof.
  induction l as [|e l IH]; intros H.
  - exists []. split; [reflexivity|contradiction].
  - destruct (IH (fun x X => H x (or_intror X))) as (u & C & U). destruct (H e (or_introl eq_refl)) as (t & M & Y & N).
    exists (NSaved (snd e) :: u). split.
    + unfold ck. cbn [map pblock pcheck]. rewrite M, N. cbn [assignable same]. rewrite Y. fold ck. rewrite C. reflexivity.
    + intros x [<-|X]; [left; reflexivity|right; apply U; exact X].
Qed.

(** The types of members are the same as themselves. *)
Lemma kind_same k : same (kind_ty k) (kind_ty k) = true.
Proof. destruct k; cbn; unfold msg_eqb; rewrite ?Nat.eqb_refl; reflexivity. Qed.
Lemma member_same s t : pmember sc r s = Some (YSlice t) -> same t t = true.
Proof.
  unfold pmember, r. cbn [struct_of]. unfold slot_ty. destruct (find _ _) as [f|]; [|discriminate]. destruct (is_oneof f); [discriminate|].
  destruct (f_ty f) as [[| | |b|] k|kk vk]; cbn [field_ty]; try (destruct k; intros H; injection H as <-; reflexivity); try discriminate.
  - destruct k; try discriminate; intros H; injection H as <-; reflexivity.
  - destruct k; try discriminate; intros H; injection H as <-; reflexivity.
  - destruct k; try discriminate; intros H; injection H as <-; reflexivity.
  - intros H. injection H as <-. apply kind_same.
  - destruct k; try discriminate; intros H; injection H as <-; reflexivity.
Qed.

Lemma reset_compiles : pcompiles sc pools m r (gen_reset pool m (md_of sc m)) = true.
Proof.
  unfold gen_reset. destruct (gen_reset_fields pool 0 (md_fields (md_of sc m))) as [p l] eqn:E.
  destruct (fields_step (md_fields (md_of sc m)) (fun f H => H) 0 [] p l ltac:(contradiction) E) as (V & u & C & N1 & N2 & _).
  destruct (restore_step V l) as (v & C2 & U).
  { intros e H. destruct (N2 e H) as (t & A & B). exists t. split; [exact A|]. split; [exact (member_same _ _ A)|exact B]. }
  assert (C3 : ck V (pblock ([PCall PM m HReset] ++ map (fun e => PRestore (fst e) (snd e)) l)) = Some (V, v)).
  { unfold ck. cbn [app pblock pcheck ptarget_ty]. unfold r at 1. cbn [phas]. unfold msg_eqb. rewrite Nat.eqb_refl. fold ck. rewrite C2. reflexivity. }
  destruct (block_app p _ [] V u V v C C3) as (w & C4 & X).
  unfold pcompiles. cbn [pcheck]. fold ck. rewrite C4. unfold r. cbn [is_nilable andb List.length]. rewrite Nat.sub_0_r, firstn_all.
  replace (forallb (fun x => pread (NSaved (fst x)) w) V) with true; [reflexivity|].
  symmetry. apply forallb_forall. intros x H. destruct (N1 x H) as [[]|[s Y]]. apply existsb_exists. exists (NSaved (fst x)). split; [|cbn; apply Nat.eqb_refl].
  apply X. apply (U _ Y).
Qed.

Lemma return_compiles : pcompiles sc pools m r (gen_return m) = true.
Proof. unfold pcompiles, gen_return, r. cbn [pblock pcheck ptarget_ty phas]. unfold msg_eqb. rewrite Nat.eqb_refl, Hs. reflexivity. Qed.
End Pool.

(** func (m *T) ResetVT(), func (m *T) ReturnToVTPool(), for every message with a pool.  [pools]: the
    messages with these methods; [pool]: those the generator takes to have them (ShouldPool). *)
Theorem C76_pool : forall sc pools pool m, wf_schema sc = true -> (m < List.length (sc_msgs sc))%nat ->
  (forall a, pool a = true -> pools a = true) -> pool m = true ->
  pcompiles sc pools m (YPtr (YMsg m)) (gen_reset pool m (md_of sc m)) = true
  /\ pcompiles sc pools m (YPtr (YMsg m)) (gen_return m) = true.
Proof. intros sc pools pool m W Hm Hp P. split; [apply reset_compiles|apply return_compiles]; auto. Qed.
Print Assumptions C76_pool.

(** Lists of messages, strings and numbers, bytes, a oneof, an optional message and a map. *)
Definition pool_sc : schema := mkS
  [mkM [mkF 1 0 (TField (LRepeated false) (KMessage 1)); mkF 2 1 (TField (LRepeated false) KString); mkF 3 2 (TField LImplicit KBytes);
        mkF 4 3 (TField LOneof (KMessage 1)); mkF 5 3 (TField LOneof KString); mkF 6 4 (TField LOptional (KMessage 1));
        mkF 7 5 (TMap KString (KMessage 1)); mkF 8 6 (TField (LRepeated true) KInt32); mkF 9 7 (TField (LRepeated false) (KMessage 0))] 8 true [] true false;
   mkM [] 0 true [] true false] ex_up.
Example C76_nonvacuous :
  wf_schema pool_sc = true
  /\ gen_reset (fun a => Nat.eqb a 0 || Nat.eqb a 1) 0 (md_of pool_sc 0)
     = PIfSome (pblock [PRange 0 (PCall PElem 1 HResetVT); PSave 0 0; PClear 1; PSave 1 1; PSave 2 2; PIfOneof 3 4 (PCall (PIn 3 4) 1 HReturn);
                        PCall (PField 4) 1 HReturn; PSave 3 6; PRange 7 (PCall PElem 0 HResetVT); PSave 4 7; PCall PM 0 HReset;
                        PRestore 0 0; PRestore 1 1; PRestore 2 2; PRestore 6 3; PRestore 7 4]).
Proof. vm_compute. split; reflexivity. Qed.

(** The rules are not empty: each line changes one thing of an accepted body; the last line is the
    body of a type of its own (option wrap), which has no Reset. *)
Example C76_rejects :
  let ck := pcompiles pool_sc (fun a => Nat.eqb a 0) 0 (YPtr (YMsg 0)) in
  ck (pblock [PSave 0 2; PCall PM 0 HReset; PRestore 2 0]) = true
  /\ ck (pblock [PSave 0 2; PCall PM 0 HReset]) = false
  /\ ck (pblock [PSave 0 2; PCall PM 0 HReset; PRestore 2 1]) = false
  /\ ck (pblock [PSave 0 2; PCall PM 0 HReset; PRestore 1 0]) = false
  /\ ck (pblock [PSave 0 2; PSave 0 1; PRestore 1 0]) = false
  /\ ck (pblock [PSave 0 4; PRestore 4 0]) = false
  /\ ck (PRange 7 (PCall PElem 0 HResetVT)) = true
  /\ ck (PRange 7 (PCall PM 0 HResetVT)) = false
  /\ ck (PRange 0 (PCall PElem 1 HResetVT)) = false
  /\ ck (PRange 0 (PCall PElem 1 HReset)) = true
  /\ ck (PRange 4 (PCall PElem 1 HReset)) = false
  /\ ck (PClear 4) = false
  /\ ck (PIfOneof 3 4 (PCall (PIn 3 4) 1 HReset)) = true
  /\ ck (PIfOneof 3 6 (PCall (PIn 3 6) 1 HReset)) = false
  /\ ck (PIfOneof 3 5 (PCall (PIn 3 5) 1 HReset)) = false
  /\ pcompiles pool_sc (fun a => Nat.eqb a 0) 0 (YPtr (YOwn 0)) (gen_reset (fun _ => false) 0 (md_of pool_sc 0)) = false.
Proof. vm_compute. repeat split; reflexivity. Qed.

(** The hypothesis on [pools] is needed: ShouldPool (generatedfile.go:27-42) looks at the options of a
    message only, also when the package of the message is generated without the feature pool. *)
Theorem C76_pools_needed : exists sc pools pool m, wf_schema sc = true /\ (m < List.length (sc_msgs sc))%nat /\ pool m = true /\ pools m = true
  /\ pcompiles sc pools m (YPtr (YMsg m)) (gen_reset pool m (md_of sc m)) = false.
Proof. exists pool_sc, (fun a => Nat.eqb a 0), (fun _ => true), 0%nat. vm_compute. repeat split; try reflexivity; lia. Qed.
Print Assumptions C76_pools_needed.
