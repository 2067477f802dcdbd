(** The code of GenUnmarshal.v obeys the rules of GoTypesUnmarshal.v. *)
From Coq Require Import ZArith List Bool String Arith Lia.
From Verif Require Import Base Schema Value Helpers Typing Marshal Unmarshal GoSyntax GoMarshal GenSize GenMarshal GenSizeFacts GoUnmarshal GenUnmarshal GoTypes GenTypes GenTypesFacts GoTypesUnmarshal.
Import ListNotations.
Open Scope string_scope.
Open Scope Z_scope.
Open Scope list_scope.

(** The rules one by one. *)
Section Rules.
Variable sc : schema.
Variable dp : nat -> dispatch.
Variable wrap : bool.
Variable declared : string -> bool.
Variable pools : nat -> bool.
Variable self : nat.
Variable meth : string.
Notation ucheck := (ucheck sc dp wrap declared pools self meth).
Notation uty_of := (uty_of sc pools self).
Notation ugives := (ugives sc pools self).
Notation uis_bool := (uis_bool sc pools self).

Definition ublk br G s := close G (ucheck br None (List.length G) G s).

Lemma uk_blk br G s n G' u w : List.length G = n -> ucheck br None n G s = Some (G', u) -> close G (Some (G', u)) = Some w -> ublk br G s = Some w.
Proof. intros <- A B. unfold ublk. rewrite A. exact B. Qed.
Lemma uk_skip br sw start (G : ctx) : ucheck br sw start G USkip = Some (G, []).
Proof. reflexivity. Qed.
Lemma uk_nil br sw start (G : ctx) : ucheck br sw start G (ublock []) = Some (G, []).
Proof. reflexivity. Qed.
Lemma uk_cons br start (G : ctx) a l G1 G2 u v : ucheck br None start G a = Some (G1, u) -> ucheck br None start G1 (ublock l) = Some (G2, v) ->
  ucheck br None start G (ublock (a :: l)) = Some (G2, u ++ v).
Proof. intros A B. cbn. rewrite A, B. reflexivity. Qed.
Lemma uk_app br start (G : ctx) a l G1 G2 u v : ucheck br None start G (ublock a) = Some (G1, u) -> ucheck br None start G1 (ublock l) = Some (G2, v) ->
  ucheck br None start G (ublock (a ++ l)) = Some (G2, u ++ v).
Proof.
  revert G u. induction a as [|s a IH]; intros G u A B.
  - cbn in A. injection A as <- <-. exact B.
  - cbn in A. destruct (ucheck br None start G s) as [[G0 u0]|] eqn:E; [|discriminate].
    destruct (ucheck br None start G0 (ublock a)) as [[G3 u3]|] eqn:F; [|discriminate]. injection A as -> <-.
    cbn [app]. rewrite <- app_assoc. eapply uk_cons; [exact E|]. eapply IH; eassumption.
Qed.
Lemma uk_var br sw start (G : ctx) x y t : uty_ty sc self y = Some t -> in_block start G x = false -> ucheck br sw start G (UVar x y) = Some ((x, t) :: G, []).
Proof. intros A B. cbn. rewrite A. unfold declare. rewrite B. reflexivity. Qed.
Lemma uk_ptr br sw start (G : ctx) x n k t : elem_ty sc self n k = Some t -> in_block start G x = false -> ucheck br sw start G (UPtrVar x n k) = Some ((x, t) :: G, []).
Proof. intros A B. cbn. rewrite A. unfold declare. rewrite B. reflexivity. Qed.
Lemma uk_def br sw start (G : ctx) x e t t' : uty_of G e = Some t -> default_ty t = Some t' -> in_block start G x = false ->
  ucheck br sw start G (UDef x e) = Some ((x, t') :: G, ureads G e).
Proof. intros A B C. cbn. rewrite A, B. unfold declare. rewrite C. reflexivity. Qed.
Lemma uk_set br sw start (G : ctx) l e t : lval_ty sc G l = Some t -> ugives G e t = true -> ucheck br sw start G (USet l e) = Some (G, lval_reads false G l ++ ureads G e).
Proof. intros A B. cbn. rewrite A, B. reflexivity. Qed.
Lemma uk_or br sw start (G : ctx) l e t : lval_ty sc G l = Some t -> is_integer t = true -> ugives G e t = true ->
  ucheck br sw start G (UOr l e) = Some (G, lval_reads true G l ++ ureads G e).
Proof. intros A B C. cbn. rewrite A, B, C. reflexivity. Qed.
Lemma uk_inc br sw start (G : ctx) x t : var_ty G x = Some t -> is_numeric t = true -> ucheck br sw start G (UInc x) = Some (G, []).
Proof. intros A B. cbn. rewrite A, B. reflexivity. Qed.
Lemma uk_add br sw start (G : ctx) x e t : var_ty G x = Some t -> is_numeric t = true -> ugives G e t = true -> ucheck br sw start G (UAdd x e) = Some (G, ureads G e).
Proof. intros A B C. cbn. rewrite A, B, C. reflexivity. Qed.
Lemma uk_if br sw start (G : ctx) c a b u v : uis_bool G c = true -> ublk br G a = Some u -> ublk br G b = Some v ->
  ucheck br sw start G (UIf c a b) = Some (G, ureads G c ++ u ++ v).
Proof. intros A B C. unfold ublk in *. cbn. rewrite A, B, C. reflexivity. Qed.
Lemma uk_while br sw start (G : ctx) c a u : uis_bool G c = true -> ublk true G a = Some u -> ucheck br sw start G (UWhile c a) = Some (G, ureads G c ++ u).
Proof. intros A B. unfold ublk in *. cbn. rewrite A, B. reflexivity. Qed.
Lemma uk_ever br sw start (G : ctx) a u : ublk true G a = Some u -> ucheck br sw start G (UEver a) = Some (G, u).
Proof. intros B. unfold ublk in *. cbn. rewrite B. reflexivity. Qed.
Lemma uk_shift br sw start (G : ctx) a u w : ublk true (("shift", YUint) :: G) a = Some u -> close G (Some (("shift", YUint) :: G, u)) = Some w ->
  ucheck br sw start G (UShift a) = Some (G, w).
Proof. intros A B. unfold ublk in *. cbn -[close]. cbn -[close] in A. rewrite A. unfold after. fin B. Qed.
Lemma uk_break sw start (G : ctx) : ucheck true sw start G UBreak = Some (G, []).
Proof. reflexivity. Qed.
Lemma uk_ret br sw start (G : ctx) e : uerr_ok G e = true -> ucheck br sw start G (URet e) = Some (G, uerr_reads G e).
Proof. intros A. cbn. rewrite A. reflexivity. Qed.
Lemma uk_helper br sw start (G : ctx) : has_buffer G && has_int G "iNdEx" = true -> in_block start G "skippy" = false -> in_block start G "err" = false ->
  ucheck br sw start G UHelperSkip = Some (("err", YErr) :: ("skippy", YInt) :: G, use G "dAtA" ++ use G "iNdEx").
Proof. intros A B C. cbn. rewrite A. unfold declare2. rewrite B, C. reflexivity. Qed.
Lemma uk_decode br sw start (G : ctx) d p a x y t : place_ty sc G p = Some t -> decodes dp wrap declared meth d t a = true -> has_buffer G = true ->
  ugives G x YInt = true -> ugives G y YInt = true ->
  ucheck br sw start G (UDecode d p a x y) = Some (G, place_reads G p ++ use G "dAtA" ++ ureads G x ++ ureads G y).
Proof. intros A B C D E. cbn. rewrite A, B, C, D, E. reflexivity. Qed.
Lemma uk_oneof br sw start (G : ctx) s n a b c s' u v w : sel_ty sc G s = Some (YOne c s') -> implements sc c s' n = true ->
  ublk br (("oneof", YPtr (YWrap c n)) :: G) a = Some u -> ublk br (("oneof", YPtr (YWrap c n)) :: G) b = Some v ->
  close G (Some (("oneof", YPtr (YWrap c n)) :: G, use G "m" ++ u ++ v)) = Some w ->
  ucheck br sw start G (UOneof s n a b) = Some (G, w).
Proof. intros A B C D E. unfold ublk in *. cbn -[close]. cbn -[close] in C, D. rewrite A, B, C, D. unfold after, both. fin E. Qed.
Lemma uk_grow br sw start (G : ctx) s t : last_ty sc G s = Some t -> ucheck br sw start G (UGrow s) = Some (G, use G "m").
Proof. intros A. cbn. rewrite A. reflexivity. Qed.
Lemma uk_copy br sw start (G : ctx) l a b : lval_ty sc G l = Some YBytes -> has_buffer G = true -> ugives G a YInt = true -> ugives G b YInt = true ->
  ucheck br sw start G (UCopy l a b) = Some (G, lval_reads true G l ++ use G "dAtA" ++ ureads G a ++ ureads G b).
Proof. intros A B C D. cbn. rewrite A, B, C, D. reflexivity. Qed.
Lemma uk_put br sw start (G : ctx) s k v k' v' : sel_ty sc G s = Some (YMap k v) -> var_ty G "mapkey" = Some k' -> var_ty G "mapvalue" = Some v' ->
  assignable k' k = true -> assignable v' v = true ->
  ucheck br sw start G (UPut s) = Some (G, use G "m" ++ use G "mapkey" ++ use G "mapvalue").
Proof. intros A B C D E. cbn. rewrite A, B, C, D, E. reflexivity. Qed.
Lemma uk_mark br sw start (G : ctx) i mask n : var_ty G "hasFields" = Some (YArr n) -> (i < n)%nat -> fits YU64 mask = true ->
  ucheck br sw start G (UMark i mask) = Some (G, use G "hasFields").
Proof. intros A B C. cbn -[fits Nat.ltb]. rewrite A, C. apply Nat.ltb_lt in B. rewrite B. reflexivity. Qed.
Lemma uk_missing br sw start (G : ctx) i mask a n u : var_ty G "hasFields" = Some (YArr n) -> (i < n)%nat -> fits YU64 mask = true -> ublk br G a = Some u ->
  ucheck br sw start G (UMissing i mask a) = Some (G, use G "hasFields" ++ u).
Proof. intros A B C D. unfold ublk in D. cbn -[fits Nat.ltb]. rewrite A, C. apply Nat.ltb_lt in B. rewrite B. cbn. rewrite D. reflexivity. Qed.
Lemma uk_count br sw start (G : ctx) a u w : has_buffer G && has_int G "iNdEx" && has_int G "postIndex" = true ->
  ublk true (("integer", YU8) :: G) a = Some u ->
  close G (Some (("integer", YU8) :: G, (use G "dAtA" ++ use G "iNdEx" ++ use G "postIndex") ++ u)) = Some w ->
  ucheck br sw start G (UCount a) = Some (G, w).
Proof. intros A B C. unfold ublk in *. cbn -[close]. cbn -[close] in B. rewrite A, B. unfold after, both. fin C. Qed.
Lemma uk_ext br sw start (G : ctx) a : var_ty G "err" = Some YErr -> var_ty G "m" = Some (YPtr (YMsg a)) -> has_buffer G && has_int G "iNdEx" && has_int G "skippy" = true ->
  ucheck br sw start G UExt = Some (G, use G "dAtA" ++ use G "iNdEx" ++ use G "skippy" ++ use G "m").
Proof. intros A B C. cbn. rewrite A, B, C. reflexivity. Qed.
Lemma uk_keep br sw start (G : ctx) a : var_ty G "m" = Some (YPtr (YMsg a)) -> negb wrap && is_local dp a && has_buffer G && has_int G "iNdEx" && has_int G "skippy" = true ->
  ucheck br sw start G UKeep = Some (G, use G "m" ++ use G "dAtA" ++ use G "iNdEx" ++ use G "skippy").
Proof. intros A B. cbn. rewrite A, B. reflexivity. Qed.
Lemma uk_switch br sw start (G : ctx) a t G' u : var_ty G "fieldNum" = Some t -> is_integer t = true -> distinct (ucase_nums a) = true ->
  ucheck true (Some t) (List.length G) G a = Some (G', u) -> ucheck br sw start G (USwitch a) = Some (G, use G "fieldNum" ++ u).
Proof. intros A B C D. cbn. rewrite A, B, C. cbn. rewrite D. reflexivity. Qed.
Lemma uk_case br start (G : ctx) n a rest t G' u v : fits t n = true -> ublk true G a = Some u -> ucheck br (Some t) start G rest = Some (G', v) ->
  ucheck br (Some t) start G (UCase n a rest) = Some (G, u ++ v).
Proof. intros A B C. unfold ublk in B. cbn. rewrite A, B, C. reflexivity. Qed.
Lemma uk_default br start (G : ctx) a t u : ublk true G a = Some u -> ucheck br (Some t) start G (UDefault a) = Some (G, u).
Proof. intros A. unfold ublk in A. cbn. rewrite A. reflexivity. Qed.
(** [if c { return e }] for an error without variables. *)
Lemma uk_guard br sw start (G : ctx) c e : uis_bool G c = true -> uerr_ok [] e = true ->
  ucheck br sw start G (UIf c (URet e) USkip) = Some (G, ureads G c).
Proof.
  intros A B. assert (X : forall G, uerr_ok G e = true /\ uerr_reads G e = []) by (intros; destruct e; try discriminate B; auto).
  destruct (X G) as [X1 X2]. cbn. rewrite A, X1, X2. unfold after, both, close. rewrite Nat.sub_diag. cbn. rewrite app_nil_r. reflexivity.
Qed.

Lemma find_lt x (G : ctx) i t : find_var x G = Some (i, t) -> (i < List.length G)%nat.
Proof. induction G as [|[y w] G IH]; cbn; [discriminate|]. destruct (String.eqb x y); [intros [= <- _]; lia|intros H; apply IH in H; lia]. Qed.
Lemma var_find x (G : ctx) t : var_ty G x = Some t -> exists i, find_var x G = Some (i, t).
Proof. unfold var_ty. destruct (find_var x G) as [[i w]|]; [|discriminate]. intros [= <-]. eauto. Qed.
Lemma int_find x (G : ctx) : has_int G x = true -> exists i, find_var x G = Some (i, YInt).
Proof. unfold has_int. destruct (var_ty G x) as [[]|] eqn:E; try discriminate. intros _. apply var_find, E. Qed.
Lemma buf_find (G : ctx) : has_buffer G = true -> exists i, find_var "dAtA" G = Some (i, YBytes).
Proof. unfold has_buffer. destruct (var_ty G "dAtA") as [[]|] eqn:E; try discriminate. destruct t; try discriminate. intros _. apply var_find, E. Qed.

Definition far (l : lval) : bool := match l with LVar x => negb (String.eqb x "b") && negb (String.eqb x "shift") | _ => true end.
Lemma lval_far (G : ctx) l a b : far l = true -> lval_ty sc (("b", a) :: ("shift", b) :: G) l = lval_ty sc G l /\ lval_reads true (("b", a) :: ("shift", b) :: G) l = lval_reads true G l.
Proof.
  destruct l as [x|s|s]; cbn [far lval_ty lval_reads]; intros F; [|split; reflexivity|split; reflexivity].
  apply andb_prop in F. destruct F as [F1 F2]. apply negb_true_iff in F1, F2. unfold var_ty, use. cbn [find_var]. rewrite F1, F2. split; reflexivity.
Qed.
Lemma lval_lt (G : ctx) l t : lval_ty sc G l = Some t -> Forall (fun i => i < List.length G)%nat (lval_reads true G l).
Proof.
  assert (U : forall x, Forall (fun i => i < List.length G)%nat (use G x)).
  { intros x. unfold use. destruct (find_var x G) as [[i w]|] eqn:E; constructor; [|constructor]. eapply find_lt, E. }
  intros _. destruct l; cbn; auto.
Qed.
Lemma filter_lt n l : Forall (fun i => i < n)%nat l -> filter (fun i => Nat.ltb i n) l = l.
Proof. induction 1 as [|i l L F IH]; [reflexivity|]. cbn [filter]. apply Nat.ltb_lt in L. rewrite L, IH. reflexivity. Qed.

(** decodeVarint. *)
Lemma uk_varint br sw start (G : ctx) l y t : uty_ty sc self y = Some t -> lval_ty sc G l = Some t -> is_integer t = true -> far l = true ->
  has_buffer G = true -> has_int G "iNdEx" = true -> has_int G "l" = true ->
  ucheck br sw start G (u_varint l y) = Some (G, use G "iNdEx" ++ use G "l" ++ use G "dAtA" ++ use G "iNdEx" ++ lval_reads true G l).
Proof.
  intros Y L Ti F B I Le.
  destruct (int_find _ _ I) as [i Fi]. destruct (int_find _ _ Le) as [j Fj]. destruct (buf_find _ B) as [d Fd].
  pose proof (find_lt _ _ _ _ Fi) as Li. pose proof (find_lt _ _ _ _ Fj) as Lj. pose proof (find_lt _ _ _ _ Fd) as Ld.
  destruct (lval_far G l YU8 YUint F) as [V1 V2]. pose proof (lval_lt G l t L) as VL.
  assert (Tn : is_numeric t = true) by (destruct t; try discriminate Ti; reflexivity).
  assert (Ts : same t t = true) by (destruct t; try discriminate Ti; reflexivity).
  assert (Ta : forall t', assignable t' t = match t' with YConst z => fits t z | YNil => is_nilable t | _ => same t' t end) by reflexivity.
  unfold u_varint. eapply uk_shift.
  - set (G1 := ("shift", YUint) :: G).
    assert (N1 : List.length G1 = S (List.length G)) by reflexivity.
    eapply uk_blk with (n := S (List.length G)); [reflexivity| |].
    + eapply uk_cons; [eapply uk_guard; reflexivity|].
      eapply uk_cons; [eapply uk_guard; [unfold GoTypesUnmarshal.uis_bool; cbn; unfold var_ty; cbn; rewrite Fi, Fj; reflexivity|reflexivity]|].
      eapply uk_cons.
      { eapply uk_def; [cbn; unfold guard, has_buffer, var_ty; cbn; rewrite Fi, Fd; reflexivity|reflexivity|].
        unfold in_block, G1. cbn [find_var String.eqb Ascii.eqb Bool.eqb]. destruct (find_var "b" G) as [[q w]|] eqn:E; [|reflexivity]. apply find_lt in E. apply Nat.leb_gt. unfold ctx in *; lia. }
      eapply uk_cons; [eapply uk_inc with (t := YInt); [unfold var_ty; cbn; rewrite Fi; reflexivity|reflexivity]|].
      eapply uk_cons.
      { eapply uk_or; [unfold G1; rewrite V1; exact L|exact Ti|].
        unfold GoTypesUnmarshal.ugives. cbn. rewrite Y. cbn. unfold convertible. rewrite Tn. cbn. rewrite Ti. cbn.
        destruct t; try discriminate Ti; reflexivity. }
      eapply uk_cons; [eapply uk_if; [reflexivity|eapply uk_blk; [reflexivity|eapply uk_break|]|]|eapply uk_nil].
      * unfold close. rewrite Nat.sub_diag. reflexivity.
      * unfold ublk. cbn. unfold close. rewrite Nat.sub_diag. reflexivity.
    + unfold close, G1. cbn [List.length]. rewrite V2.
      replace (S (S (List.length G)) - S (List.length G))%nat with 1%nat by lia. cbn [seq forallb].
      replace (existsb _ _) with true; [reflexivity|]. symmetry. apply existsb_exists. exists (S (List.length G)). split; [|apply Nat.eqb_refl].
      rewrite !in_app_iff. do 4 right. left. right. cbn. auto.
  - unfold close. cbn [List.length]. replace (S (List.length G) - List.length G)%nat with 1%nat by lia. cbn [seq forallb].
    cbn [ureads use find_var String.eqb Ascii.eqb Bool.eqb num iNdEx List.length app].
    unfold use. cbn [find_var String.eqb Ascii.eqb Bool.eqb]. rewrite Fi, Fj, Fd.
    assert (FL : forall n, (List.length G <= n)%nat -> filter (fun i0 => Nat.ltb i0 n) (lval_reads true G l) = lval_reads true G l).
    { intros n Hn'. apply filter_lt. eapply Forall_impl; [|exact VL]. cbn. intros; lia. }
    assert (K : forall a n, (a < n)%nat -> Nat.ltb a n = true) by (intros; apply Nat.ltb_lt; lia).
    assert (K' : forall a n, (n <= a)%nat -> Nat.ltb a n = false) by (intros; apply Nat.ltb_ge; lia).
    unfold ctx in *.
    repeat first [progress cbn [filter app] | rewrite filter_app | rewrite FL by lia | rewrite K by lia | rewrite K' by lia].
    rewrite !app_nil_r. cbn [existsb]. rewrite Nat.eqb_refl. reflexivity.
Qed.

Lemma gives_append (G : ctx) s e t : last_ty sc G s = Some t -> ugives G e t = true -> same t t = true -> ugives G (XAppend s e) (YSlice t) = true.
Proof.
  unfold GoTypesUnmarshal.ugives. cbn. intros -> A B. destruct (uty_of G e) as [a|]; [|discriminate]. rewrite A. cbn. exact B.
Qed.
Lemma gives_wrap (G : ctx) s n e t : in_ty sc self n = Some t -> ugives G e t = true -> implements sc self s n = true -> ugives G (XWrap n e) (YOne self s) = true.
Proof.
  unfold GoTypesUnmarshal.ugives. cbn. intros -> A B. destruct (uty_of G e) as [a|]; [|discriminate]. rewrite A. cbn. rewrite msg_refl. exact B.
Qed.
Lemma gives_new (G : ctx) n a : names_msg sc self n a = true -> ugives G (XNew n a) (YPtr (YMsg a)) = true.
Proof. unfold GoTypesUnmarshal.ugives. cbn. intros ->. cbn. apply msg_refl. Qed.
Lemma gives_pool (G : ctx) n a : names_msg sc self n a = true -> pools a = true -> ugives G (XPool n a) (YPtr (YMsg a)) = true.
Proof. unfold GoTypesUnmarshal.ugives. cbn. intros -> ->. cbn. apply msg_refl. Qed.
Lemma gives_var (G : ctx) x t : var_ty G x = Some t -> same t t = true -> ugives G (XVar x) t = true.
Proof. unfold GoTypesUnmarshal.ugives. cbn. intros -> A. destruct t; try discriminate A; try exact A; match goal with x : gtyp |- _ => destruct x; exact A end. Qed.
Lemma bool_both (G : ctx) a b : uis_bool G a = true -> uis_bool G b = true -> uis_bool G (XBoth a b) = true.
Proof. unfold GoTypesUnmarshal.uis_bool. cbn. destruct (uty_of G a) as [[]|], (uty_of G b) as [[]|]; try discriminate; reflexivity. Qed.
Lemma bool_either (G : ctx) a b : uis_bool G a = true -> uis_bool G b = true -> uis_bool G (XEither a b) = true.
Proof. exact (bool_both G a b). Qed.
Lemma bool_par (G : ctx) a : uis_bool G a = true -> uis_bool G (XPar a) = true.
Proof. exact (fun H => H). Qed.
Lemma dec_known a : dp a = DKnown -> declared meth = true -> decodes dp wrap declared meth DKnown (YPtr (YMsg a)) a = true.
Proof. intros E D. cbn. rewrite msg_refl, E, D. destruct wrap; reflexivity. Qed.
Lemma dec_local a : dp a = DLocal -> wrap = false -> declared meth = true -> decodes dp wrap declared meth DLocal (YPtr (YMsg a)) a = true.
Proof. intros E H D. cbn. unfold is_local. rewrite E, D, H. reflexivity. Qed.
Lemma dec_other a : decodes dp wrap declared meth DOther (YPtr (YMsg a)) a = true.
Proof. reflexivity. Qed.
End Rules.

(** Evaluating the side conditions, up to what is known of the schema ([S]). *)
Ltac ulz := lazy beta iota zeta delta [uty_of ureads ugives uis_bool lval_ty lval_reads place_ty place_reads decodes uerr_ok uerr_reads sel_ty last_ty
  uty_ty elem_ty uassignable convertible var_ty find_var use has_int has_buffer in_block default_ty guard declare declare2 common comparable
  assignable same is_numeric is_integer is_nilable fits YBytes kind_ty has_method is_known is_local
  String.eqb Ascii.eqb Bool.eqb List.length app filter seq forallb existsb Nat.eqb Nat.ltb Nat.leb Nat.sub orb andb negb fst snd
  iNdEx num Z.leb Z.ltb Z.compare Pos.compare Pos.compare_cont close append Z.of_nat Pos.of_succ_nat Pos.succ].
Ltac uknown := match goal with
     | H : struct_of ?s = _ |- context [struct_of ?s] => rewrite H
     | |- context [struct_of (YPtr (YMsg ?a))] => change (struct_of (YPtr (YMsg a))) with (Some a)
     | H : slot_ty _ _ ?s = _ |- context [slot_ty _ _ ?s] => rewrite H
     | H : in_ty _ _ ?s = _ |- context [in_ty _ _ ?s] => rewrite H
     | H : implements _ _ ?s ?n = _ |- context [implements _ _ ?s ?n] => rewrite H
     | H : named _ _ ?n = _ |- context [named _ _ ?n] => rewrite H
     | H : names_msg _ _ ?n ?a = _ |- context [names_msg _ _ ?n ?a] => rewrite H
     | H : ?p ?a = true |- context [?p ?a] => is_var p; is_var a; rewrite H
     end.
(** First what is known of the schema, so that the rest can be computed. *)
Ltac uleaf := 
   lazy beta iota zeta delta [uty_of ugives uis_bool lval_ty place_ty last_ty sel_ty var_ty find_var uty_ty elem_ty String.eqb Ascii.eqb Bool.eqb List.length decodes];
   repeat uknown; first [solve [ulz; reflexivity] |
   solve [repeat first [ reflexivity | progress ulz | uknown
   | match goal with
     | H : ?w = false |- context [match ?w with true => _ | false => _ end] => rewrite H
     | H : ?w = true |- context [match ?w with true => _ | false => _ end] => rewrite H
     | H : ?d _ = ?y |- context [?d ?z] => match type of y with dispatch => rewrite H | bool => rewrite H end
     end
   | rewrite msg_refl | rewrite Z.eqb_refl | rewrite existsb_app | rewrite filter_app | rewrite orb_true_r
   | match goal with |- context [if ?b then true else true] => replace (if b then true else true) with true by (destruct b; reflexivity) end ]]].
Ltac ubool := lazymatch goal with
  | |- uis_bool _ _ _ _ (XBoth _ _) = _ => apply bool_both; ubool
  | |- uis_bool _ _ _ _ (XEither _ _) = _ => apply bool_either; ubool
  | |- uis_bool _ _ _ _ (XPar _) = _ => apply bool_par; ubool
  | _ => uleaf
  end.

Ltac ugiv := lazymatch goal with
  | |- ugives _ _ _ _ (XAppend _ _) _ = _ => eapply gives_append; [uleaf|ugiv|uleaf]
  | |- ugives _ _ _ _ (XWrap _ _) _ = _ => eapply gives_wrap; [eassumption|ugiv|assumption]
  | |- ugives _ _ _ _ (XNew _ _) _ = _ => eapply gives_new; assumption
  | |- ugives _ _ _ _ (XPool _ _) _ = _ => eapply gives_pool; assumption
  | |- ugives _ _ _ _ (XVar _) _ = _ => eapply gives_var; [uleaf|uleaf]
  | _ => uleaf
  end.

Ltac uk := lazymatch goal with
  | |- ublk _ _ _ _ _ _ _ _ _ _ = _ => eapply uk_blk; [reflexivity|uk|uleaf]
  | |- ucheck _ _ _ _ _ _ _ _ _ _ _ ?s = _ => lazymatch s with
  | USkip => eapply uk_skip
  | ublock [] => eapply uk_nil
  | ublock (_ ++ _) => eapply uk_app; [uk|uk]
  | ublock (_ :: _) => eapply uk_cons; [uk|uk]
  | UVar _ _ => eapply uk_var; [uleaf|uleaf]
  | UPtrVar _ _ _ => eapply uk_ptr; [uleaf|uleaf]
  | UDef _ _ => eapply uk_def; [uleaf|uleaf|uleaf]
  | USet _ _ => eapply uk_set; [uleaf|ugiv]
  | UOr _ _ => eapply uk_or; [uleaf|uleaf|uleaf]
  | UInc _ => eapply uk_inc; [uleaf|uleaf]
  | UAdd _ _ => eapply uk_add; [uleaf|uleaf|uleaf]
  | UIf _ (URet (RHelper _ _)) USkip => eapply uk_guard; [ubool|reflexivity]
  | UIf _ (URet REOF) USkip => eapply uk_guard; [ubool|reflexivity]
  | u_varint _ _ => eapply uk_varint; [uleaf|uleaf|uleaf|reflexivity|uleaf|uleaf|uleaf]
  | UIf _ _ _ => eapply uk_if; [ubool|uk|uk]
  | UWhile _ _ => eapply uk_while; [ubool|uk]
  | UEver _ => eapply uk_ever; uk
  | UShift _ => eapply uk_shift; [uk|uleaf]
  | UBreak => eapply uk_break
  | URet _ => eapply uk_ret; uleaf
  | UHelperSkip => eapply uk_helper; [uleaf|uleaf|uleaf]
  | UDecode _ _ _ _ _ => eapply uk_decode; [uleaf|first [apply dec_other|apply dec_known; assumption|apply dec_local; assumption]|uleaf|uleaf|uleaf]
  | UOneof _ _ _ _ => eapply uk_oneof; [uleaf|uleaf|uk|uk|uleaf]
  | UGrow _ => eapply uk_grow; uleaf
  | UCopy _ _ _ => eapply uk_copy; [uleaf|uleaf|uleaf|uleaf]
  | UPut _ => eapply uk_put; [uleaf|uleaf|uleaf|uleaf|uleaf]
  | UCount _ => eapply uk_count; [uleaf|uk|uleaf]
  end end.

Ltac ufield := eexists; eexists; eexists; split; [uk|split; [uleaf|reflexivity]].
Ltac uopen := lazy beta iota zeta delta [u_field u_item u_message u_group u_map u_direct u_store u_store_var u_prealloc u_string u_zig32 u_zig64
  u_len_int u_len_u64 u_check u_skip u_fixed wrong bad_length packable ProtoWireType Z.eqb Pos.eqb is_num sub_of f_ty f_num f_slot is_oneof orb andb negb].

Section Unmarshal.
Variable sc : schema.
Variable dp : nat -> dispatch.
Variable wrap : bool.
Variable declared : string -> bool.
Variable pools pool : nat -> bool.
Variable unique : Z -> bool.
Variable unsafe : bool.
Hypothesis W : wf_schema sc = true.
Variable m : nat.
Hypothesis Hm : (m < List.length (sc_msgs sc))%nat.
Hypothesis Hw : if wrap then forall m', dp m' <> DLocal else dp m = DLocal.
Hypothesis DM : declared (meth_unmarshal unsafe) = true.
Hypothesis HP : forall a, pool a = true -> pools a = true.

(** The variables in front of the switch; [H]: with hasFields. *)
Definition GU (H : option nat) (r : gtyp) : ctx :=
  [("wireType", YInt); ("fieldNum", YI32); ("wire", YU64); ("preIndex", YInt); ("iNdEx", YInt); ("l", YInt)]
  ++ match H with Some n => [("hasFields", YArr n)] | None => [] end ++ [("dAtA", YBytes); ("m", r)].

(** The statements of a case are accepted, their variables are read, and hasFields is still that of
    the method. *)
Definition ufield_ok (H : option nat) (r : gtyp) (l : list ustmt) : Prop :=
  exists G' u w, ucheck sc dp wrap declared pools m (meth_unmarshal unsafe) true None (List.length (GU H r)) (GU H r) (ublock l) = Some (G', u)
    /\ close (GU H r) (Some (G', u)) = Some w /\ var_ty G' "hasFields" = var_ty (GU H r) "hasFields".

Lemma named_ok f : In f (md_fields (md_of sc m)) -> named sc m (f_num f) = Some (match f_ty f with TField _ k => k | TMap _ vk => vk end).
Proof. intros I. unfold named. rewrite (find_ok sc W m Hm f I). destruct (f_ty f); reflexivity. Qed.
End Unmarshal.
