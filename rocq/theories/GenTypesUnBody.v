(** The printed UnmarshalVT and UnmarshalVTUnsafe compile (GenUnmarshal.v, unmarshal.go:783-892). *)
From Coq Require Import ZArith List Bool String Arith Lia.
From Verif Require Import Base Schema Value Helpers Typing Marshal Unmarshal GoSyntax GoMarshal GenSize GenMarshal GenSizeFacts GoUnmarshal GenUnmarshal GoTypes GenTypes GenTypesFacts GoTypesUnmarshal GenTypesUnmarshal GenTypesUnPlain GenTypesUnList GenTypesUnMap.
Import ListNotations.
Open Scope string_scope.
Open Scope Z_scope.
Open Scope list_scope.

Section Body.
Variable sc : schema.
Variable dp : nat -> dispatch.
Variable wrap : bool.
Variable declared : string -> bool.
Variable pools pool : nat -> bool.
Variable unique : Z -> bool.
Variable unsafe : bool.
Hypothesis W : wf_schema sc = true.
Variable m : nat.
Hypothesis Hm : (m < List.length (sc_msgs sc))%nat.
Variable r : gtyp.
Hypothesis HF : forall H f, In f (md_fields (md_of sc m)) ->
  ufield_ok sc dp wrap declared pools unsafe m H r (u_field dp pool unique unsafe (md_pool (md_of sc m)) f).
Hypothesis HK : md_keep (md_of sc m) = true -> r = YPtr (YMsg m) /\ wrap = false /\ dp m = DLocal.
Hypothesis HE : md_ext (md_of sc m) <> [] -> r = YPtr (YMsg m).
Hypothesis HR : forall p, In p (md_ext (md_of sc m)) -> fits YI32 (fst p) = true /\ fits YI32 (snd p) = true.

Let ck := ucheck sc dp wrap declared pools m (meth_unmarshal unsafe).
Let bk := ublk sc dp wrap declared pools m (meth_unmarshal unsafe).
Let md := md_of sc m.

(** hasFields, if the message has required fields. *)
Definition has_of (md : mdesc) : option nat :=
  match required_numbers md with [] => None | l => Some (1 + (List.length l - 1) / 64)%nat end.
Let H := has_of md.

Lemma close_all (G G' : ctx) u n : List.length G = n -> (forall i, In i (seq n (List.length G' - n)) -> In i u) ->
  close G (Some (G', u)) = Some (filter (fun i => Nat.ltb i n) u).
Proof.
  intros <- B. unfold close. destruct (forallb _ _) eqn:E; [reflexivity|].
  apply Bool.not_true_iff_false in E. exfalso. apply E, forallb_forall. intros i I. apply existsb_exists. exists i. split; [apply B, I|apply Nat.eqb_refl].
Qed.
Lemma close_new (G G' : ctx) u w : close G (Some (G', u)) = Some w -> forall i, In i (seq (List.length G) (List.length G' - List.length G)) -> In i u.
Proof.
  unfold close. destruct (forallb _ _) eqn:E; [|discriminate]. intros _ i I. rewrite forallb_forall in E. apply E in I.
  apply existsb_exists in I. destruct I as [j [I J]]. apply Nat.eqb_eq in J. subst j. exact I.
Qed.

Lemma close_none' (G : ctx) u : close G (Some (G, u)) = Some (filter (fun i => Nat.ltb i (List.length G)) u).
Proof. unfold close. rewrite Nat.sub_diag. reflexivity. Qed.

(** ** The ranges of extensions *)
Lemma range_ok (G : ctx) p : var_ty G "fieldNum" = Some YI32 -> fits YI32 (fst p) = true -> fits YI32 (snd p) = true ->
  uis_bool sc pools m G (u_range p) = true.
Proof.
  intros V A B. apply bool_both; apply bool_par; unfold uis_bool, num; cbn [uty_of]; rewrite V; unfold common, assignable; rewrite ?A, ?B; reflexivity.
Qed.
Lemma more_ok (G : ctx) l : forall e, var_ty G "fieldNum" = Some YI32 -> uis_bool sc pools m G e = true ->
  (forall p, In p l -> fits YI32 (fst p) = true /\ fits YI32 (snd p) = true) -> uis_bool sc pools m G (u_more e l) = true.
Proof.
  induction l as [|p l IH]; cbn [u_more]; intros e V E P; [exact E|]. destruct (P p (or_introl eq_refl)).
  apply IH; auto; [|intros q Q; apply P; right; exact Q]. apply bool_either; [exact E|]. apply bool_par, range_ok; auto.
Qed.
Lemma ranges_ok (G : ctx) p l : var_ty G "fieldNum" = Some YI32 ->
  (forall q, In q (p :: l) -> fits YI32 (fst q) = true /\ fits YI32 (snd q) = true) -> uis_bool sc pools m G (u_ranges p l) = true.
Proof.
  intros V P. destruct (P p (or_introl eq_refl)). unfold u_ranges. destruct l as [|q l]; [apply range_ok; auto|].
  apply more_ok; [exact V|apply bool_par, range_ok; auto|]. intros x X. apply P. right. exact X.
Qed.

(** ** The default case *)
Ltac ukeep := lazymatch goal with
  | |- ucheck _ _ _ _ _ _ _ _ _ _ _ (ublock (UKeep :: _)) = _ => eapply uk_cons; [eapply uk_keep; [reflexivity|]|uk]
  | _ => uk
  end.
Ltac member := rewrite ?in_app_iff, ?filter_In, ?in_app_iff; cbn; tauto.

Lemma default_ok o : exists w, bk true (GU o r) (ublock (u_unknown md)) = Some w /\ In (List.length (GU o r) - 4)%nat w.
Proof.
  unfold bk, u_unknown, u_skip, bad_length. fold md in HK, HE, HR.
  assert (K : md_keep md = true -> r = YPtr (YMsg m) /\ negb wrap && is_local dp m = true).
  { intros E. destruct (HK E) as (A & B & C). unfold is_local. rewrite B, C. auto. }
  destruct (md_ext md) as [|p l] eqn:Ee.
  - destruct (md_keep md) eqn:Ek; [destruct (K eq_refl) as [Er Ew]; rewrite Er|]; destruct o as [h|]; unfold GU; cbn [app].
    all: eexists; split; [eapply uk_blk; [reflexivity|do 5 (eapply uk_cons; [uk|]); ukeep; rewrite Ew; reflexivity|eapply close_all; [reflexivity|]]|].
    all: try (intros i I; cbn in I; destruct I as [<-|[<-|[]]]; cbn; tauto).
    all: cbn; tauto.
  - assert (Er : r = YPtr (YMsg m)) by (apply HE; discriminate). rewrite Er.
    assert (RB : forall G : ctx, var_ty G "fieldNum" = Some YI32 -> uis_bool sc pools m G (u_ranges p l) = true) by (intros G V; apply ranges_ok; auto).
    generalize dependent (u_ranges p l). intros c RB. clear HF.
    destruct (md_keep md) eqn:Ek; [destruct (K eq_refl) as [_ Ew]|]; destruct o as [h|]; unfold GU; cbn [app].
    all: eexists; split; [eapply uk_blk; [reflexivity|do 5 (eapply uk_cons; [uk|]); eapply uk_cons; [|apply uk_nil]; eapply uk_if;
           [apply RB; reflexivity
           |eapply uk_blk; [reflexivity|eapply uk_cons; [eapply uk_ext; reflexivity|uk]|apply close_none']
           |eapply uk_blk; [reflexivity|ukeep; rewrite Ew; reflexivity|apply close_none']]
         |eapply close_all; [reflexivity|]]|].
    all: try (intros i I; cbn in I; destruct I as [<-|[<-|[]]]; cbn; tauto).
    all: cbn; tauto.
Qed.

(** ** The bits of required fields *)
Lemma bit_lt l z : In z l -> (field_bit l z < List.length l)%nat.
Proof.
  induction l as [|x l IH]; [intros []|]. cbn. intros [->|I]; [rewrite Z.eqb_refl; lia|]. destruct (x =? z); [lia|]. specialize (IH I). lia.
Qed.
Lemma has_some f : In f (md_fields md) -> is_required f = true ->
  has_of md = Some (1 + (List.length (required_numbers md) - 1) / 64)%nat
  /\ (field_bit (required_numbers md) (f_num f) / 64 < 1 + (List.length (required_numbers md) - 1) / 64)%nat.
Proof.
  intros I Q. assert (X : In (f_num f) (required_numbers md)) by (apply in_map, filter_In; auto).
  pose proof (bit_lt _ _ X) as B. unfold has_of. destruct (required_numbers md) as [|z l] eqn:E; [destruct X|]. split; [reflexivity|].
  assert (field_bit (z :: l) (f_num f) / 64 <= (List.length (z :: l) - 1) / 64)%nat by (apply Nat.div_le_mono; lia). lia.
Qed.
Lemma mask_ok k : fits YU64 (Z.shiftl 1 (Z.of_nat (k mod 64))) = true.
Proof.
  pose proof (Nat.mod_upper_bound k 64 ltac:(lia)) as B. rewrite Z.shiftl_1_l. unfold fits.
  assert (0 < 2 ^ Z.of_nat (k mod 64)) by (apply Z.pow_pos_nonneg; lia).
  assert (2 ^ Z.of_nat (k mod 64) < 2 ^ 64) by (apply Z.pow_lt_mono_r; lia).
  change 18446744073709551616 with (2 ^ 64). apply andb_true_intro. split; [apply Z.leb_le|apply Z.ltb_lt]; lia.
Qed.

(** ** The cases *)
Lemma case_ok f : In f (md_fields md) ->
  exists w, bk true (GU H r) (ublock (u_field dp pool unique unsafe (md_pool md) f ++ u_mark md f)) = Some w.
Proof.
  intros I. destruct (HF H f I) as (G' & u & w & A & B & C). unfold bk, ublk. fold md in A.
  assert (M : exists v, ck true None (List.length (GU H r)) G' (ublock (u_mark md f)) = Some (G', v)).
  { unfold u_mark. destruct (is_required f) eqn:Q; [|exists []; reflexivity]. destruct (has_some f I Q) as [E L].
    eexists. eapply uk_cons; [eapply uk_mark|eapply uk_nil].
    - rewrite C. unfold H. rewrite E. reflexivity.
    - exact L.
    - apply mask_ok. }
  destruct M as [v M]. rewrite (uk_app sc dp wrap declared pools m (meth_unmarshal unsafe) _ _ _ _ _ _ _ _ _ A M).
  eexists. apply close_all; [reflexivity|]. intros i X. apply in_or_app. left. eapply close_new; eauto.
Qed.

Lemma num_ok f : In f (md_fields md) -> fits YI32 (f_num f) = true.
Proof.
  intros I. pose proof (wf_m sc W m Hm) as M. unfold wf_msg in M. apply andb_prop in M. destruct M as [M _]. rewrite forallb_forall in M.
  specialize (M f I). unfold wf_field in M. apply andb_prop in M. destruct M as [M _]. apply andb_prop in M. destruct M as [M _]. apply andb_prop in M.
  destruct M as [A B]. apply Z.leb_le in A. apply Z.ltb_lt in B. unfold fits. apply andb_true_intro. split; [apply Z.leb_le|apply Z.ltb_lt]; lia.
Qed.

Lemma cases_ok l start : (forall f, In f l -> In f (md_fields md)) ->
  exists v, ck true (Some YI32) start (GU H r) (u_cases dp pool unique unsafe md l) = Some (GU H r, v) /\ In (List.length (GU H r) - 4)%nat v.
Proof.
  induction l as [|f l IH]; intros I.
  - destruct (default_ok H) as [w [A B]]. exists w. split; [|exact B]. cbn [u_cases]. apply uk_default, A.
  - destruct IH as [v [A B]]; [intros g X; apply I; right; exact X|]. destruct (case_ok f (I f (or_introl eq_refl))) as [w C].
    exists (w ++ v). split; [|apply in_or_app; right; exact B]. cbn [u_cases]. eapply uk_case; [apply num_ok, I; left; reflexivity|exact C|exact A].
Qed.
Lemma ucase_nums_ok l : ucase_nums (u_cases dp pool unique unsafe md l) = map f_num l.
Proof. induction l as [|f l IH]; [reflexivity|]. cbn. rewrite IH. reflexivity. Qed.

(** The variables in front of the loop. *)
Definition GB (o : option nat) : ctx :=
  [("iNdEx", YInt); ("l", YInt)] ++ match o with Some n => [("hasFields", YArr n)] | None => [] end ++ [("dAtA", YBytes); ("m", r)].

Lemma step_ok : exists w, bk true (GB H) (u_step dp pool unique unsafe md) = Some w.
Proof.
  destruct (cases_ok (md_fields md) (List.length (GU H r)) (fun _ X => X)) as [v [A B]].
  assert (D : distinct (ucase_nums (u_cases dp pool unique unsafe md (md_fields md))) = true).
  { rewrite ucase_nums_ok. apply distinct_ok. pose proof (wf_m sc W m Hm) as M. unfold wf_msg in M. apply andb_prop in M. apply M. }
  clear HF. clearbody H. unfold bk, ck, u_step, GB, GU in *. generalize dependent (u_cases dp pool unique unsafe md (md_fields md)). intros c A D.
  destruct H as [h|]; cbn [app] in *.
  all: eexists; eapply uk_blk; [reflexivity|do 7 (eapply uk_cons; [uk|]); eapply uk_cons; [eapply uk_switch; [reflexivity|reflexivity|exact D|exact A]|apply uk_nil]|].
  all: eapply close_all; [reflexivity|].
  all: intros i I; cbn in I, B; rewrite !in_app_iff; destruct I as [<-|[<-|[<-|[<-|[]]]]]; cbn; tauto.
Qed.

(** ** After the loop *)
Lemma missing_ok l start : (forall f, In f l -> In f (md_fields md)) ->
  exists u, ck false None start (GB H) (ublock (flat_map (u_missing md) l)) = Some (GB H, u)
    /\ (existsb is_required l = true -> In 2%nat u).
Proof.
  induction l as [|f l IH]; intros I; [exists []; split; [reflexivity|discriminate]|].
  destruct IH as [u [A B]]; [intros g X; apply I; right; exact X|]. cbn [flat_map existsb].
  unfold u_missing at 1. destruct (is_required f) eqn:Q; [|exists u; split; [exact A|exact B]].
  destruct (has_some f (I f (or_introl eq_refl)) Q) as [E L].
  eexists. split.
  - eapply uk_cons; [eapply uk_missing|exact A].
    + unfold H. rewrite E. reflexivity.
    + exact L.
    + apply mask_ok.
    + eapply uk_blk; [reflexivity|eapply uk_ret; reflexivity|apply close_none'].
  - intros _. unfold H. rewrite E. cbn. auto.
Qed.

Lemma returns_last l e : ureturns (ublock (l ++ [URet e])) = true.
Proof. induction l as [|s l IH]; [reflexivity|]. cbn [app ublock ureturns]. destruct (ublock (l ++ [URet e])) eqn:E; try exact IH. destruct l; discriminate E. Qed.

Lemma body_ok : ucompiles sc dp wrap declared pools m (meth_unmarshal unsafe) r (u_body dp pool unique unsafe md) = true.
Proof.
  unfold ucompiles. 
  assert (R : ureturns (u_body dp pool unique unsafe md) = true).
  { unfold u_body. rewrite !app_assoc. change [UIf (XGt iNdEx (XVar "l")) (URet REOF) USkip; URet RNil] with ([UIf (XGt iNdEx (XVar "l")) (URet REOF) USkip] ++ [URet RNil]).
    rewrite app_assoc. apply returns_last. }
  rewrite R. destruct step_ok as [w S]. destruct (missing_ok (md_fields md) 0%nat (fun _ X => X)) as [u [A B]].
  assert (X : exists G' v, ck false None 0 [("dAtA", YBytes); ("m", r)] (u_body dp pool unique unsafe md) = Some (G', v)
    /\ forall i, In i (seq 2 (List.length G' - 2)) -> In i v).
  { clear R. unfold u_body. clear HF.
    assert (E : match required_numbers md with [] => H = None | x :: l => H = Some (1 + (List.length (x :: l) - 1) / 64)%nat /\ existsb is_required (md_fields md) = true end).
    { unfold H, has_of, required_numbers. destruct (map f_num _) as [|x l] eqn:E; [reflexivity|]. split; [reflexivity|].
      destruct (filter is_required (md_fields md)) as [|f q] eqn:F; [discriminate E|]. apply existsb_exists. exists f. apply filter_In. rewrite F. left. reflexivity. }
    unfold ck, bk in *. generalize dependent (flat_map (u_missing md) (md_fields md)). intros ms A.
    generalize dependent (u_step dp pool unique unsafe md). intros st S.
    destruct (required_numbers md) as [|x l].
    - rewrite E in *. cbn [app]. unfold GB in *. cbn [app] in *. eexists. eexists. split.
      + eapply uk_cons; [uk|]. eapply uk_cons; [uk|]. eapply uk_cons; [eapply uk_while; [ubool|exact S]|]. eapply uk_app; [exact A|]. uk.
      + intros i I. cbn in I. rewrite !in_app_iff. destruct I as [<-|[<-|[]]]; cbn; tauto.
    - destruct E as [E E2]. rewrite E in *. remember (1 + (List.length (x :: l) - 1) / 64)%nat as n. cbn [app]. unfold GB in *. cbn [app] in *. specialize (B E2).
      eexists. eexists. split.
      + eapply uk_cons; [reflexivity|]. eapply uk_cons; [uk|]. eapply uk_cons; [uk|]. eapply uk_cons; [eapply uk_while; [ubool|exact S]|]. eapply uk_app; [exact A|]. uk.
      + intros i I. cbn in I. rewrite !in_app_iff. destruct I as [<-|[<-|[<-|[]]]]; cbn; tauto. }
  destruct X as (G' & v & X & Y). unfold ck in X. rewrite X. rewrite (close_all [("dAtA", YBytes); ("m", r)] G' v 2 eq_refl Y). reflexivity.
Qed.
End Body.

(** ** Every field *)
Lemma un_field sc (dp : nat -> dispatch) (wrap : bool) declared pools pool unique unsafe m r H mp f : wf_schema sc = true -> (m < List.length (sc_msgs sc))%nat ->
  (if wrap then forall m', dp m' <> DLocal else dp m = DLocal) -> declared (meth_unmarshal unsafe) = true ->
  (forall a, pool a = true -> pools a = true) -> struct_of r = Some m -> In f (md_fields (md_of sc m)) ->
  ufield_ok sc dp wrap declared pools unsafe m H r (u_field dp pool unique unsafe mp f).
Proof.
  intros W Hm Hw DM HP R I. pose proof (slot_ok sc W m Hm f I) as S. pose proof (named_ok sc W m Hm f I) as N. pose proof (wf_f sc W m Hm f I) as T.
  pose proof (in_ok sc W m Hm f I) as IN. pose proof (implements_ok sc W m Hm f I) as IM.
  destruct f as [n s [lab k|kk vk]]; cbn [f_ty f_num f_slot] in *.
  - assert (D : lab = LOneof \/ lab <> LOneof) by (destruct lab; auto; right; discriminate). destruct D as [->|D].
    + apply un_in; auto; exact (IN eq_refl).
    + destruct lab as [| | |p|]; [apply un_single; auto|apply un_single; auto|apply un_single; auto|apply un_repeated; auto|contradiction].
  - cbn in T. apply andb_prop in T. destruct T as [T1 T2]. apply andb_prop in T1. apply un_map; auto; [apply T1|]. apply negb_true_iff, T2.
Qed.

Lemma unmarshal_compiles sc (dp : nat -> dispatch) (wrap : bool) declared pools pool unique unsafe m r : wf_schema sc = true -> (m < List.length (sc_msgs sc))%nat ->
  (if wrap then forall m', dp m' <> DLocal else dp m = DLocal) -> declared (meth_unmarshal unsafe) = true ->
  (forall a, pool a = true -> pools a = true) -> struct_of r = Some m ->
  (md_keep (md_of sc m) = true -> r = YPtr (YMsg m) /\ wrap = false) ->
  (md_ext (md_of sc m) <> [] -> r = YPtr (YMsg m)) ->
  (forall p, In p (md_ext (md_of sc m)) -> fits YI32 (fst p) = true /\ fits YI32 (snd p) = true) ->
  ucompiles sc dp wrap declared pools m (meth_unmarshal unsafe) r (u_body dp pool unique unsafe (md_of sc m)) = true.
Proof.
  intros W Hm Hw DM HP R K E X. apply body_ok; auto.
  - intros H f I. apply un_field; auto.
  - intros Q. destruct (K Q) as [A B]. rewrite B in Hw. auto.
Qed.
