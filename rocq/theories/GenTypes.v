(** What GoTypes.v says about the code of GenSize.v and GenMarshal.v: lemmas. *)
From Coq Require Import ZArith List Bool String Arith Lia.
From Verif Require Import Base Schema Value Helpers Typing Marshal GoSyntax GoMarshal GenSize GenMarshal GenSizeFacts GoTypes.
Import ListNotations.
Open Scope string_scope.
Open Scope Z_scope.
Open Scope list_scope.

Section Facts.
Variable sc : schema.
Variable dp : nat -> dispatch.
Variable wrap : bool.
Variable declared : string -> bool.
Hypothesis W : wf_schema sc = true.
Variable m : nat.
Hypothesis Hm : (m < List.length (sc_msgs sc))%nat.
(** The messages whose code is printed: of the run, or with wrap known ones. *)
Hypothesis Hw : if wrap then forall m', dp m' <> DLocal else dp m = DLocal.

Definition recv : gtyp := YPtr (if wrap then YOwn m else YMsg m).
Definition recv_in (num : Z) : gtyp := YPtr (if wrap then YOwnWrap m num else YWrap m num).

Lemma wf_m : wf_msg (List.length (sc_msgs sc)) (md_of sc m) = true.
Proof.
  unfold wf_schema in W. rewrite forallb_forall in W. apply W. unfold md_of. apply nth_In. exact Hm.
Qed.

Lemma wf_f f : In f (md_fields (md_of sc m)) -> wf_type (List.length (sc_msgs sc)) (f_ty f) = true.
Proof.
  intros H. pose proof wf_m as M. unfold wf_msg in M. apply andb_prop in M. destruct M as [M _].
  rewrite forallb_forall in M. apply M in H. unfold wf_field in H. apply andb_prop in H. apply H.
Qed.

Lemma pair_compat {A} (R : A -> A -> bool) l x y : pairwise R l = true -> In x l -> In y l -> x = y \/ R x y = true \/ R y x = true.
Proof.
  induction l as [|a l IH]; cbn; intros P Hx Hy; [destruct Hx|]. apply andb_prop in P. destruct P as [P1 P2]. rewrite forallb_forall in P1.
  destruct Hx as [<-|Hx], Hy as [<-|Hy]; auto.
Qed.

Lemma compat f g : In f (md_fields (md_of sc m)) -> In g (md_fields (md_of sc m)) -> f = g \/ compatible f g = true \/ compatible g f = true.
Proof.
  intros A B. pose proof wf_m as M. unfold wf_msg in M. apply andb_prop in M. destruct M as [_ M]. eapply pair_compat; eauto.
Qed.

Lemma slot_ok f : In f (md_fields (md_of sc m)) ->
  slot_ty sc m (f_slot f) = Some (if is_oneof f then YOne m (f_slot f) else field_ty (f_ty f)).
Proof.
  intros H. unfold slot_ty. destruct (find _ _) as [g|] eqn:F.
  - apply find_some in F. destruct F as [G E]. apply Nat.eqb_eq in E.
    destruct (compat f g H G) as [<-|C]; [reflexivity|].
    assert (is_oneof f = true /\ is_oneof g = true) as [-> ->].
    { destruct C as [C|C]; unfold compatible in C; rewrite E, Nat.eqb_refl in C; apply andb_prop in C; destruct C as [_ C]; cbn in C; apply andb_prop in C; tauto. }
    reflexivity.
  - exfalso. pose proof (find_none _ _ F f H) as N. cbn in N. rewrite Nat.eqb_refl in N. discriminate.
Qed.

Lemma find_ok f : In f (md_fields (md_of sc m)) -> find_field (f_num f) (md_fields (md_of sc m)) = Some f.
Proof.
  intros H. unfold find_field. destruct (find _ _) as [g|] eqn:F.
  - apply find_some in F. destruct F as [G E]. apply Z.eqb_eq in E.
    destruct (compat f g H G) as [<-|C]; [reflexivity|]. exfalso.
    destruct C as [C|C]; unfold compatible in C; rewrite E, Z.eqb_refl in C; discriminate.
  - exfalso. pose proof (find_none _ _ F f H) as N. cbn in N. rewrite Z.eqb_refl in N. discriminate.
Qed.

Lemma in_ok f : In f (md_fields (md_of sc m)) -> is_oneof f = true -> in_ty sc m (f_num f) = Some (field_ty (f_ty f)).
Proof. intros H O. unfold in_ty. rewrite (find_ok _ H), O. reflexivity. Qed.

Lemma implements_ok f : In f (md_fields (md_of sc m)) -> is_oneof f = true -> implements sc m (f_slot f) (f_num f) = true.
Proof. intros H O. unfold implements. rewrite (find_ok _ H), O, Nat.eqb_refl. reflexivity. Qed.

(** SizeVT *)
Hypothesis D : declared "SizeVT" = true.
Definition GS (t : gtyp) : ctx := [("l", YInt); ("m", t); ("n", YInt)].

End Facts.

Lemma fits_key k : 0 <= k <= 100 -> fits YInt k = true.
Proof. intros H. cbn. apply andb_true_intro. split; [apply Z.leb_le|apply Z.ltb_lt]; lia. Qed.

Lemma fits_sum num wt z : 0 <= z <= 20 -> fits YInt (KeySize num wt + z) = true.
Proof. intros H. apply fits_key. pose proof (key_pos num wt). pose proof (key_small num wt). lia. Qed.
Lemma fits_one num wt : fits YInt (KeySize num wt) = true.
Proof. rewrite <- (Z.add_0_r (KeySize num wt)). apply fits_sum. lia. Qed.
Lemma fits_two num wt : fits YInt (2 * KeySize num wt) = true.
Proof. apply fits_key. pose proof (key_pos num wt). pose proof (key_small num wt). lia. Qed.

Lemma msg_refl a : msg_eqb a a = true. Proof. apply Nat.eqb_refl. Qed.

(** The rules one by one. *)
Ltac fin H := match type of H with ?a = Some ?w => match goal with |- context [close ?g ?r] => change (close g r) with a; rewrite H; reflexivity end end.
Section Rules.
Variable sc : schema.
Variable dp : nat -> dispatch.
Variable wrap : bool.
Variable declared : string -> bool.
Notation check := (check sc dp wrap declared).
Notation mcheck := (mcheck sc dp wrap declared).
Notation ty := (ty sc dp wrap declared).
Notation gives := (gives sc dp wrap declared).
Notation is_bool := (is_bool sc dp wrap declared).

Definition blk R G s := close G (check R None (List.length G) G s).
Definition mblk R G s := close G (mcheck R None (List.length G) G s).

Lemma ck_blk R G s G' u w : check R None (List.length G) G s = Some (G', u) -> close G (Some (G', u)) = Some w -> blk R G s = Some w.
Proof. intros A B. unfold blk. rewrite A. exact B. Qed.
Lemma ck_skip R sw start G : check R sw start G SSkip = Some (G, []).
Proof. reflexivity. Qed.
Lemma ck_seq R sw start G a b G1 G2 u v : check R sw start G a = Some (G1, u) -> check R sw start G1 b = Some (G2, v) ->
  check R sw start G (SSeq a b) = Some (G2, u ++ v).
Proof. intros A B. cbn. rewrite A, B. reflexivity. Qed.
Lemma ck_var R sw start G x : in_block start G x = false -> check R sw start G (SVar x) = Some ((x, YInt) :: G, []).
Proof. intros A. cbn. unfold declare. rewrite A. reflexivity. Qed.
Lemma ck_blank R sw start G x i t : find_var x G = Some (i, t) -> check R sw start G (SBlank x) = Some (G, [i]).
Proof. intros A. cbn. rewrite A. reflexivity. Qed.
Lemma ck_def R sw start G x e t t' : ty G e = Some t -> default_ty t = Some t' -> in_block start G x = false ->
  check R sw start G (SDef x e) = Some ((x, t') :: G, reads G e).
Proof. intros A B C. cbn. rewrite A, B. unfold declare. rewrite C. reflexivity. Qed.
Lemma ck_set R sw start G x e t : var_ty G x = Some t -> gives G e t = true -> check R sw start G (SSet x e) = Some (G, reads G e).
Proof. intros A B. cbn. rewrite A, B. reflexivity. Qed.
Lemma ck_add R sw start G x e t : var_ty G x = Some t -> is_numeric t = true -> gives G e t = true ->
  check R sw start G (SAddTo x e) = Some (G, reads G e).
Proof. intros A B C. cbn. rewrite A, B, C. reflexivity. Qed.
Lemma ck_if R sw start G c a b u v : is_bool G c = true -> blk R G a = Some u -> blk R G b = Some v ->
  check R sw start G (SIf c a b) = Some (G, reads G c ++ u ++ v).
Proof. intros A B C. unfold blk in *. cbn. rewrite A, B, C. reflexivity. Qed.
Lemma ck_assert R sw start G x boxed e h a b t u v w : ty G e = Some t -> boxed || match t with YOne _ _ => true | _ => false end = true ->
  blk R ((x, YAny GSize h) :: G) a = Some u -> blk R ((x, YAny GSize h) :: G) b = Some v ->
  close G (Some ((x, YAny GSize h) :: G, reads G e ++ u ++ v)) = Some w ->
  check R sw start G (SAssert x boxed e h a b) = Some (G, w).
Proof. intros A B C F H. unfold blk in *. cbn [GoTypes.check]. rewrite A, B, C, F. cbn [both after]. fin H. Qed.
Lemma ck_range R sw start G k v e a t u w : ty G e = Some (YSlice t) ->
  blk R (bind v t (bind k YInt G)) a = Some u -> close G (Some (bind v t (bind k YInt G), u)) = Some w ->
  check R sw start G (SRange k v e a) = Some (G, reads G e ++ w).
Proof. intros A B C. unfold blk in *. cbn [GoTypes.check]. rewrite A, B. cbn [both after]. fin C. Qed.
Lemma ck_range_map R sw start G k v e a t1 t2 u w : ty G e = Some (YMap t1 t2) ->
  blk R (bind v t2 (bind k t1 G)) a = Some u -> close G (Some (bind v t2 (bind k t1 G), u)) = Some w ->
  check R sw start G (SRange k v e a) = Some (G, reads G e ++ w).
Proof. intros A B C. unfold blk in *. cbn [GoTypes.check]. rewrite A, B. cbn [both after]. fin C. Qed.
Lemma ck_switch R sw start G x e a m s G' u w : ty G e = Some (YOne m s) -> distinct (case_nums a) = true ->
  check R (Some (x, m, s)) (List.length G) G a = Some (G', u) -> close G (Some ((x, YInt) :: G, u)) = Some w ->
  check R sw start G (SSwitch x e a) = Some (G, reads G e ++ w).
Proof. intros A B C H. cbn [GoTypes.check]. rewrite A, B, C. fin H. Qed.
Lemma ck_case R start G x m s num a rest G' u v : implements sc m s num = true -> blk R ((x, YPtr (YWrap m num)) :: G) a = Some u ->
  check R (Some (x, m, s)) start G rest = Some (G', v) ->
  check R (Some (x, m, s)) start G (SCase num a rest) = Some (G, u ++ v).
Proof. intros A B C. unfold blk in B. cbn [GoTypes.check]. rewrite A, B, C. reflexivity. Qed.
Lemma ck_return t sw start G e : gives G e t = true -> check [t] sw start G (SReturn e) = Some (G, reads G e).
Proof. intros A. cbn. rewrite A. reflexivity. Qed.

Lemma mk_blk R G s G' u w : mcheck R None (List.length G) G s = Some (G', u) -> close G (Some (G', u)) = Some w -> mblk R G s = Some w.
Proof. intros A B. unfold mblk. rewrite A. exact B. Qed.
Lemma mk_skip R sw start G : mcheck R sw start G MSkip = Some (G, []).
Proof. reflexivity. Qed.
Lemma mk_seq R sw start G a b G1 G2 u v : mcheck R sw start G a = Some (G1, u) -> mcheck R sw start G1 b = Some (G2, v) ->
  mcheck R sw start G (MSeq a b) = Some (G2, u ++ v).
Proof. intros A B. cbn. rewrite A, B. reflexivity. Qed.
Lemma mk_do R sw start G s G' u : check R None start G s = Some (G', u) -> mcheck R sw start G (MDo s) = Some (G', u).
Proof. intros A. exact A. Qed.
Lemma mk_sub R sw start G e : has_int G "i" && gives G e YInt = true -> mcheck R sw start G (MSub e) = Some (G, reads G e).
Proof. intros A. cbn. rewrite A. reflexivity. Qed.
Lemma mk_dec R sw start G : has_int G "i" = true -> mcheck R sw start G MDec = Some (G, []).
Proof. intros A. cbn. rewrite A. reflexivity. Qed.
Lemma mk_put R sw start G j e : has_buffer G && has_int G j && gives G e YU8 = true ->
  mcheck R sw start G (MPut j e) = Some (G, use G "dAtA" ++ use G j ++ reads G e).
Proof. intros A. cbn. rewrite A. reflexivity. Qed.
Lemma mk_inc R sw start G x t : var_ty G x = Some t -> is_numeric t = true -> mcheck R sw start G (MInc x) = Some (G, []).
Proof. intros A B. cbn. rewrite A, B. reflexivity. Qed.
Lemma mk_shr R sw start G x t : var_ty G x = Some t -> is_integer t = true -> mcheck R sw start G (MShr x) = Some (G, []).
Proof. intros A B. cbn. rewrite A, B. reflexivity. Qed.
Lemma mk_fix8 R sw start G e : has_buffer G && has_int G "i" && gives G e YU64 = true ->
  mcheck R sw start G (MFixed 8 e) = Some (G, use G "dAtA" ++ use G "i" ++ reads G e).
Proof. intros A. cbn. rewrite A. reflexivity. Qed.
Lemma mk_fix4 R sw start G e : has_buffer G && has_int G "i" && gives G e YU32 = true ->
  mcheck R sw start G (MFixed 4 e) = Some (G, use G "dAtA" ++ use G "i" ++ reads G e).
Proof. intros A. cbn. rewrite A. reflexivity. Qed.
Lemma mk_copy R sw start G e t : ty G e = Some t -> (t = YStr \/ t = YBytes) -> has_buffer G && has_int G "i" = true ->
  mcheck R sw start G (MCopy e) = Some (G, use G "dAtA" ++ use G "i" ++ reads G e).
Proof. intros A B C. cbn. rewrite A, C. destruct B as [-> | ->]; reflexivity. Qed.
Lemma mk_varint R sw start G e : has_buffer G && has_int G "i" && gives G e YU64 = true ->
  mcheck R sw start G (MVarint e) = Some (G, use G "dAtA" ++ use G "i" ++ reads G e).
Proof. intros A. cbn. rewrite A. reflexivity. Qed.
Lemma mk_if R sw start G c a b u v : is_bool G c = true -> mblk R G a = Some u -> mblk R G b = Some v ->
  mcheck R sw start G (MIf c a b) = Some (G, reads G c ++ u ++ v).
Proof. intros A B C. unfold mblk in *. cbn. rewrite A, B, C. reflexivity. Qed.
Lemma mk_down R sw start G e a u w : ty G (ELen e) = Some YInt ->
  mblk R (("iNdEx", YInt) :: G) a = Some u ->
  close G (Some (("iNdEx", YInt) :: G, use (("iNdEx", YInt) :: G) "iNdEx" ++ u)) = Some w ->
  mcheck R sw start G (MDown e a) = Some (G, reads G e ++ w).
Proof. intros A B C. unfold mblk in *. cbn [GoTypes.mcheck]. rewrite A, B. cbn [both after]. fin C. Qed.
Lemma mk_range R sw start G v e a t u w : ty G e = Some (YSlice t) ->
  mblk R (bind v t G) a = Some u -> close G (Some (bind v t G, u)) = Some w ->
  mcheck R sw start G (MRange v e a) = Some (G, reads G e ++ w).
Proof. intros A B C. unfold mblk in *. cbn [GoTypes.mcheck]. rewrite A, B. cbn [both after]. fin C. Qed.
Lemma mk_keys R sw start G e a t t2 u w : ty G e = Some (YMap t t2) ->
  mblk R (("k", t) :: G) a = Some u -> close G (Some (("k", t) :: G, u)) = Some w ->
  mcheck R sw start G (MKeys e a) = Some (G, reads G e ++ w).
Proof. intros A B C. unfold mblk in *. cbn [GoTypes.mcheck]. rewrite A, B. cbn [both after]. fin C. Qed.
Lemma mk_while R sw start G x a t u : var_ty G x = Some t -> is_integer t && fits t 128 = true -> mblk R G a = Some u ->
  mcheck R sw start G (MWhile x a) = Some (G, use G x ++ u).
Proof. intros A B C. unfold mblk in *. cbn [GoTypes.mcheck]. rewrite A, B, C. reflexivity. Qed.
Lemma mk_call R sw start G x e h j t G' u : ty G e = Some t -> has_method dp wrap declared t GSized h && has_buffer G && has_int G j = true ->
  declare2 start G x YInt (reads G e ++ use G "dAtA" ++ use G j) = Some (G', u) ->
  mcheck R sw start G (MCall x e h j) = Some (G', u).
Proof. intros A B C. cbn [GoTypes.mcheck]. rewrite A, B. exact C. Qed.
Lemma mk_encode R sw start G e m G' u : ty G e = Some (YPtr (YMsg m)) -> declare2 start G "encoded" YBytes (reads G e) = Some (G', u) ->
  mcheck R sw start G (MEncode e) = Some (G', u).
Proof. intros A B. cbn [GoTypes.mcheck]. rewrite A. exact B. Qed.
Lemma mk_assert R sw start G x boxed e h a b t u v w : ty G e = Some t -> boxed || match t with YOne _ _ => true | _ => false end = true ->
  mblk R ((x, YAny GSized h) :: G) a = Some u -> mblk R ((x, YAny GSized h) :: G) b = Some v ->
  close G (Some ((x, YAny GSized h) :: G, reads G e ++ u ++ v)) = Some w ->
  mcheck R sw start G (MAssert x boxed e h a b) = Some (G, w).
Proof. intros A B C F H. unfold mblk in *. cbn [GoTypes.mcheck]. rewrite A, B, C, F. cbn [both after]. fin H. Qed.
Lemma mk_is R sw start G x e num a m s u w : ty G e = Some (YOne m s) -> implements sc m s num = true ->
  mblk R ((x, YPtr (YWrap m num)) :: G) a = Some u -> close G (Some ((x, YPtr (YWrap m num)) :: G, reads G e ++ u)) = Some w ->
  mcheck R sw start G (MIs x e num a) = Some (G, w).
Proof. intros A B C H. unfold mblk in *. cbn [GoTypes.mcheck]. rewrite A, B, C. cbn [both after]. fin H. Qed.
Lemma mk_switch R sw start G x e a m s G' u w : ty G e = Some (YOne m s) -> distinct (mcase_nums a) = true ->
  mcheck R (Some (x, m, s)) (List.length G) G a = Some (G', u) -> close G (Some ((x, YInt) :: G, u)) = Some w ->
  mcheck R sw start G (MSwitch x e a) = Some (G, reads G e ++ w).
Proof. intros A B C H. cbn [GoTypes.mcheck]. rewrite A, B, C. fin H. Qed.
Lemma mk_case R start G x m s num a rest G' u v : implements sc m s num = true -> mblk R ((x, YPtr (YWrap m num)) :: G) a = Some u ->
  mcheck R (Some (x, m, s)) start G rest = Some (G', v) ->
  mcheck R (Some (x, m, s)) start G (MCase num a rest) = Some (G, u ++ v).
Proof. intros A B C. unfold mblk in B. cbn [GoTypes.mcheck]. rewrite A, B, C. reflexivity. Qed.
Lemma mk_make R sw start G : has_buffer G && has_int G "size" = true -> mcheck R sw start G MMake = Some (G, use G "size").
Proof. intros A. cbn. rewrite A. reflexivity. Qed.
Lemma mk_tail sw start G e h t : ty G e = Some t -> has_method dp wrap declared t GSized h && has_buffer G && has_int G "size" = true ->
  mcheck [YInt; YErr] sw start G (MTail e h) = Some (G, reads G e ++ use G "dAtA" ++ use G "size").
Proof. intros A B. cbn [GoTypes.mcheck]. rewrite A, B. reflexivity. Qed.
Lemma mk_return t1 t2 sw start G e r : gives G e t1 && gives G r t2 = true ->
  mcheck [t1; t2] sw start G (MReturn e r) = Some (G, reads G e ++ reads G r).
Proof. intros A. cbn. rewrite A. reflexivity. Qed.
End Rules.
