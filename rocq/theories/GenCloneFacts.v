(** The printed CloneVT methods compute [CloneVT_from]. *)
From Coq Require Import ZArith List Bool Lia String.
From Coq Require Import Sorting.Permutation.
From Verif Require Import Base Schema Value Helpers Typing Unmarshal Equal EqualRel Clone OrderFacts TargetFacts MarshalFacts
  ContentSpec CloneSpec SameFacts CloneFacts GoSyntax GoSem GoEqual GoClone GenSize GenSizeFacts GenEqual GenClone.
Import ListNotations.
Open Scope string_scope.
Open Scope Z_scope.
Open Scope list_scope.

Lemma cleave_drop (Q E E' : cenv) : List.length E' = List.length E -> cleave E (CNext (Q ++ E')) = CNext E'.
Proof.
  intros H. cbn [cleave]. rewrite app_length, H.
  replace (List.length Q + List.length E - List.length E)%nat with (List.length Q) by lia.
  rewrite skipn_app, skipn_all, Nat.sub_diag. reflexivity.
Qed.
Lemma same_type_refl t : same_type t t = true.
Proof. unfold same_type. destruct (gtype_dec t t); [reflexivity|contradiction]. Qed.
Lemma overwrite_all {A} (d s : list A) : List.length d = List.length s -> overwrite d s = s.
Proof. intros H. unfold overwrite. rewrite H, firstn_all, <- H, skipn_all. apply app_nil_r. Qed.
Lemma list_set_app {A} (p : list A) x y l : list_set (p ++ x :: l) (List.length p) y = p ++ y :: l.
Proof. induction p as [|z p IH]; cbn; [reflexivity|now rewrite IH]. Qed.
Lemma list_set_slot r i : list_set r i (slot r i) = r.
Proof. unfold slot. revert i. induction r as [|x r IH]; intros [|i]; cbn; try reflexivity. now rewrite IH. Qed.
Lemma list_set_comm {A} (l : list A) i j x y : i <> j -> list_set (list_set l i x) j y = list_set (list_set l j y) i x.
Proof.
  revert i j. induction l as [|z l IH]; intros [|i] [|j] H; cbn; try reflexivity; try congruence.
  f_equal. apply IH. congruence.
Qed.

(** Variables declared by the statements of one field. *)
Definition temps : list string := ["vtpb"; "tmpBytes"].
Definition temp (Q : cenv) : Prop := forall p, In p Q -> In (fst p) temps.
Lemma temp_nil : temp [].
Proof. intros p []. Qed.
Lemma temp_cons x g Q : In x temps -> temp Q -> temp ((x, g) :: Q).
Proof. intros H T p [<-|Hp]; [exact H|auto]. Qed.
Lemma lookup_temp x Q E : temp Q -> ~ In x temps -> clookup x (Q ++ E) = clookup x E.
Proof.
  intros T N. induction Q as [|[y g] Q IH]; [reflexivity|]. cbn [app clookup].
  destruct (String.eqb_spec x y) as [->|]; [destruct N; apply (T (y, g)); now left|]. apply IH. intros p Hp. apply T. now right.
Qed.
Lemma assign_temp x g Q E E' : temp Q -> ~ In x temps -> cassign x g E = Some E' -> cassign x g (Q ++ E) = Some (Q ++ E').
Proof.
  intros T N H. induction Q as [|[y h] Q IH]; [exact H|]. cbn [app cassign].
  destruct (String.eqb_spec x y) as [->|]; [destruct N; apply (T (y, h)); now left|]. rewrite IH; [reflexivity|]. intros p Hp. apply T. now right.
Qed.

Section Run.
Variable sc : schema.
Variable dp : nat -> dispatch.
Variable al : list step -> nat -> val.
Hypothesis W : wf_schema sc = true.
Hypothesis D : forall m, dp m <> DOther -> md_foreign (md_of sc m) = false.

Lemma cfind_slot m f : In f (md_fields (md_of sc m)) -> is_oneof f = false ->
  find (fun f0 => Nat.eqb (f_slot f0) (f_slot f)) (md_fields (md_of sc m)) = Some f.
Proof.
  intros Hf No.
  destruct (find (fun f0 => Nat.eqb (f_slot f0) (f_slot f)) (md_fields (md_of sc m))) as [h|] eqn:Fd.
  - apply find_some in Fd as [Hh Es]. apply Nat.eqb_eq in Es. f_equal.
    assert (forall x y : fdesc, {x = y} + {x <> y}) as De by (repeat decide equality).
    destruct (De h f) as [|Ne]; [assumption|].
    destruct (wf_compat sc m h f W Hh Hf Ne) as [_ Q]. destruct (Q Es) as [_ Q2]. congruence.
  - apply find_none with (x := f) in Fd; [|exact Hf]. now rewrite Nat.eqb_refl in Fd.
Qed.
Lemma cfind_oneof m f : In f (md_fields (md_of sc m)) -> is_oneof f = true ->
  exists h, find (fun f0 => Nat.eqb (f_slot f0) (f_slot f)) (md_fields (md_of sc m)) = Some h /\ is_oneof h = true.
Proof.
  intros Hf No.
  destruct (find (fun f0 => Nat.eqb (f_slot f0) (f_slot f)) (md_fields (md_of sc m))) as [h|] eqn:Fd.
  - apply find_some in Fd as [Hh Es]. apply Nat.eqb_eq in Es. exists h. split; [reflexivity|].
    assert (forall x y : fdesc, {x = y} + {x <> y}) as De by (repeat decide equality).
    destruct (De h f) as [->|Ne]; [assumption|].
    destruct (wf_compat sc m h f W Hh Hf Ne) as [_ Q]. now destruct (Q Es).
  - apply find_none with (x := f) in Fd; [|exact Hf]. now rewrite Nat.eqb_refl in Fd.
Qed.

Section Body.
Variable call : cval -> option cval.
Variable path : list step.
(** Where the method runs: [path] for a message, the wrapper in it for a wrapper. *)
Variable here : list step.
Variable rec : step -> nat -> val -> val.
Variable n : nat.
Hypothesis C : forall st m a, wt_ptrmsg sc m a -> (vdepth a < n)%nat -> md_foreign (md_of sc m) = false ->
  call (CV (TMsg m) (Some (st :: path)) a) = Some (CV (TMsg m) None (rec st m a)).
Hypothesis RN : forall st m, rec st m VNil = VNil.
Notation eval := (ceval sc al call here).
Notation exec := (cexec sc al call here).

Lemma cexec_seq num a b E : exec num (CSeq a b) E = match exec num a E with CNext E' => exec num b E' | r => r end.
Proof. reflexivity. Qed.

(** A statement that leaves [E'] and, for bytes, variables of its own. *)
Definition leaves (k : kind) (E : cenv) (s : cstmt) (E' : cenv) : Prop :=
  forall num, exists Q, (k <> KBytes -> Q = []) /\ exec num s E = CNext (Q ++ E').

(** cloneFieldSingular. *)
Lemma single_leaves E fn lhs rhs k st x (E' : val -> cenv) :
  (forall Q, temp Q -> eval (Q ++ E) rhs = Some (CV (kind_type k) (Some (st :: path)) x)) ->
  (forall Q own y, temp Q -> fresh (kind_type k) own y = true -> cwrite sc lhs (CV (kind_type k) own y) (Q ++ E) = Some (Q ++ E' y)) ->
  (forall y, List.length (E' y) = List.length E) ->
  wt_elem sc k x -> (vdepth x < n)%nat ->
  leaves k E (gen_single dp fn lhs rhs k) (E' (cloneFieldSingular sc rec st k x)).
Proof.
  intros R Wr Ln T Dx num. unfold gen_single, cloneFieldSingular.
  destruct (sub_of k) as [m|] eqn:Sk.
  - assert (classify k = CMsg m \/ classify k = CGrp m) as Ck by (destruct k; try discriminate Sk; injection Sk as ->; auto).
    assert (kind_type k = TMsg m) as Kt by (destruct k; try discriminate Sk; injection Sk as ->; reflexivity). rewrite Kt in *.
    pose proof (wt_sub_ptr sc k m x Sk T) as Tp.
    match goal with |- exists Q, _ /\ exec num ?a E = CNext (Q ++ E' ?b) =>
      assert (a = match dp m with
        | DKnown => CSet lhs (CUncast fn m (CClone (CCast m rhs))) | DLocal => CSet lhs (CClone rhs)
        | DOther => CHas rhs fn (CSet lhs (CClone (CVar "vtpb"))) (CSet lhs (CProto fn rhs)) end) as -> by (destruct Ck as [-> | ->]; reflexivity);
      assert (b = if md_foreign (md_of sc m) then up_clone (sc_up sc) m x else rec st m x) as -> by (destruct Ck as [-> | ->]; reflexivity) end.
    exists []. split; [reflexivity|]. pose proof (R [] temp_nil) as R0. cbn [app] in *.
    pose proof (Wr [] None (rec st m x) temp_nil eq_refl) as W0. cbn [app] in W0.
    destruct (dp m) eqn:Dm.
    + assert (md_foreign (md_of sc m) = false) as F by (apply D; now rewrite Dm). rewrite F.
      cbn [cexec ceval]. rewrite R0, Nat.eqb_refl, C by assumption. rewrite Nat.eqb_refl, W0. reflexivity.
    + assert (md_foreign (md_of sc m) = false) as F by (apply D; now rewrite Dm). rewrite F.
      cbn [cexec ceval]. rewrite R0, C by assumption. rewrite W0. reflexivity.
    + cbn [cexec]. rewrite R0. destruct (md_foreign (md_of sc m)) eqn:F.
      * cbn [ceval]. assert (temp [("vtpb", CV TNone None VNil)]) as TQ by (apply temp_cons; [cbn; auto|apply temp_nil]).
        pose proof (R _ TQ) as R1. cbn [app] in R1. rewrite R1.
        pose proof (Wr _ None (up_clone (sc_up sc) m x) TQ eq_refl) as W1. cbn [app] in W1. rewrite W1. cbn [cnext].
        apply (cleave_drop [_]). apply Ln.
      * cbn [ceval clookup String.eqb Ascii.eqb Bool.eqb]. rewrite C by assumption.
        assert (temp [("vtpb", CV (TMsg m) (Some (st :: path)) x)]) as TQ by (apply temp_cons; [cbn; auto|apply temp_nil]).
        pose proof (Wr _ None (rec st m x) TQ eq_refl) as W1. cbn [app] in W1. rewrite W1. cbn [cnext].
        apply (cleave_drop [_]). apply Ln.
  - assert (is_scalar k = true \/ k = KBytes) as [Sc| ->].
    { destruct k; try discriminate Sk; cbn; auto. }
    + assert (forall y, fresh (kind_type k) (Some (st :: path)) y = true) as Fr by (destruct k; try discriminate Sc; reflexivity).
      match goal with |- exists Q, _ /\ exec num ?a E = CNext (Q ++ E' ?b) =>
        assert (a = CSet lhs rhs) as -> by (destruct k; try discriminate Sc; reflexivity);
        assert (b = x) as -> by (destruct k; try discriminate Sc; reflexivity) end.
      exists []. split; [reflexivity|]. pose proof (R [] temp_nil) as R0. cbn [app] in *.
      pose proof (Wr [] (Some (st :: path)) x temp_nil (Fr x)) as W0. cbn [app] in W0. cbn [cexec]. rewrite R0, W0. reflexivity.
    + cbn [classify kind_type] in *. cbn [cblock]. rewrite cexec_seq. cbn [cexec ceval]. pose proof (R [] temp_nil) as R0. cbn [app] in R0. rewrite R0.
      assert (exists s, vbytes x = s /\ clen (CV (TKind KBytes) (Some (st :: path)) x) = Some (List.length s)) as (s & Es & L).
      { destruct (wt_byteslice sc x T) as [->|(s & ->)]; eexists; split; reflexivity. }
      rewrite L, Es. assert (temp [("tmpBytes", CV (TKind KBytes) None (VBytes (repeat 0 (List.length s))))]) as TQ by (apply temp_cons; [cbn; auto|apply temp_nil]).
      pose proof (R _ TQ) as R1. cbn [app] in R1. rewrite R1. cbn [cread clookup String.eqb Ascii.eqb Bool.eqb].
      assert (ccopy (CV (TKind KBytes) None (VBytes (repeat 0 (List.length s)))) (CV (TKind KBytes) (Some (st :: path)) x) = Some (CV (TKind KBytes) None (VBytes s))) as ->.
      { destruct (wt_byteslice sc x T) as [->|(s' & ->)]; cbn [vbytes] in Es; subst s; cbn [ccopy]; [reflexivity|]. rewrite overwrite_all by apply repeat_length. reflexivity. }
      cbn [cwrite cassign String.eqb Ascii.eqb Bool.eqb cnext clookup].
      assert (temp [("tmpBytes", CV (TKind KBytes) None (VBytes s))]) as TQ2 by (apply temp_cons; [cbn; auto|apply temp_nil]).
      pose proof (Wr _ None (VBytes s) TQ2 eq_refl) as W1. cbn [app] in W1. rewrite W1. cbn [cnext].
      eexists [_]. split; [congruence|reflexivity].
Qed.

(** Lists: the loop fills the container. *)
Lemma loop_fill num fn s k E l : forall pre,
  (forall x, In x l -> wt_elem sc k x /\ (vdepth x < n)%nat) ->
  cloop (exec num (gen_single dp fn (LAt "tmpContainer") (CVar "v") k)) (citems_at k (Some (SField s :: path)) (List.length pre) l)
    (("tmpContainer", CV (TSlice k) None (VList (pre ++ repeat (zero_kind k) (List.length l)))) :: E)
  = CNext (("tmpContainer", CV (TSlice k) None (VList (pre ++ clone_list sc rec s k (List.length pre) l))) :: E).
Proof.
  induction l as [|x l IH]; intros pre H; [reflexivity|]. destruct (H x (or_introl eq_refl)) as [Tx Dx].
  cbn [citems_at cloop option_map GoEqual.elem_pos List.length repeat clone_list].
  set (T0 := fun c => ("tmpContainer", CV (TSlice k) None (VList c)) :: E).
  fold (T0 (pre ++ zero_kind k :: repeat (zero_kind k) (List.length l))).
  set (b := CV (kind_type k) (Some (SElem s (List.length pre) :: path)) x).
  set (F := fun y => ("v", b) :: ("k", CInt (List.length pre)) :: T0 (pre ++ y :: repeat (zero_kind k) (List.length l))).
  change (("v", b) :: ("k", CInt (List.length pre)) :: T0 (pre ++ zero_kind k :: repeat (zero_kind k) (List.length l))) with (F (zero_kind k)).
  destruct (single_leaves (F (zero_kind k)) fn (LAt "tmpContainer") (CVar "v") k (SElem s (List.length pre)) x F) with (num := num) as (Q & _ & Ex); auto.
  - intros Q TQ. cbn [ceval]. rewrite lookup_temp by (auto; cbn; intros [?|[?|[]]]; discriminate). reflexivity.
  - intros Q own y TQ Fr. cbn [cwrite]. rewrite !lookup_temp by (auto; cbn; intros [?|[?|[]]]; discriminate).
    unfold F, T0. cbn [clookup String.eqb Ascii.eqb Bool.eqb]. cbn [cput_at]. rewrite Fr, same_type_refl.
    rewrite app_length. cbn [List.length andb]. destruct (Nat.ltb_spec (List.length pre) (List.length pre + S (List.length (repeat (zero_kind k) (List.length l))))); [|lia].
    rewrite list_set_app. apply assign_temp; [assumption|cbn; intros [?|[?|[]]]; discriminate|reflexivity].
  - rewrite Ex. unfold F. set (y := cloneFieldSingular sc rec (SElem s (List.length pre)) k x).
    change (Q ++ ("v", b) :: ("k", CInt (List.length pre)) :: T0 (pre ++ y :: repeat (zero_kind k) (List.length l)))
      with (Q ++ [("v", b); ("k", CInt (List.length pre))] ++ T0 (pre ++ y :: repeat (zero_kind k) (List.length l))).
    rewrite app_assoc, (cleave_drop _ (T0 (pre ++ zero_kind k :: repeat (zero_kind k) (List.length l))) (T0 (pre ++ y :: repeat (zero_kind k) (List.length l)))) by reflexivity.
    assert (S (List.length pre) = List.length (pre ++ [y])) as -> by (rewrite app_length; cbn; lia).
    replace (pre ++ y :: repeat (zero_kind k) (List.length l)) with ((pre ++ [y]) ++ repeat (zero_kind k) (List.length l)) by (rewrite <- app_assoc; reflexivity).
    unfold T0. rewrite IH by (intros z Hz; apply H; now right). rewrite <- app_assoc. reflexivity.
Qed.

Lemma map_set_new l k v : (forall e, In e l -> Unmarshal.key_eqb k (fst e) = false) -> map_set l k v = l ++ [(k, v)].
Proof.
  induction l as [|[k' v'] l IH]; intros H; [reflexivity|]. cbn [map_set app]. pose proof (H (k', v') (or_introl eq_refl)) as H0. cbn [fst] in H0. rewrite H0.
  rewrite IH; [reflexivity|]. intros e He. apply H. now right.
Qed.

(** Maps: the loop adds the entries. *)
Lemma loop_entries num fn s kk vk E l : key_kind kk = true -> forall pre,
  (forall e, In e (pre ++ l) -> wt_elem sc kk (fst e)) -> NoDup (map fst (pre ++ l)) ->
  (forall e, In e l -> wt_elem sc vk (snd e) /\ (vdepth (snd e) < n)%nat) ->
  cloop (exec num (gen_single dp fn (LAt "tmpContainer") (CVar "v") vk))
    (map (fun e => (CV (kind_type kk) None (fst e), CV (kind_type vk) (option_map (fun p => GoEqual.entry_pos p (fst e)) (Some (SField s :: path))) (snd e))) l)
    (("tmpContainer", CV (TMapOf kk vk) None (VMap pre)) :: E)
  = CNext (("tmpContainer", CV (TMapOf kk vk) None (VMap (pre ++ map (fun e => (fst e, cloneFieldSingular sc rec (SKey s (fst e)) vk (snd e))) l))) :: E).
Proof.
  intros KK. induction l as [|[key x] l IH]; intros pre HK ND H; [cbn; now rewrite app_nil_r|]. destruct (H _ (or_introl eq_refl)) as [Tx Dx].
  cbn [map cloop option_map GoEqual.entry_pos fst snd] in *.
  set (T0 := fun c => ("tmpContainer", CV (TMapOf kk vk) None (VMap c)) :: E).
  fold (T0 pre).
  set (b := CV (kind_type vk) (Some (SKey s key :: path)) x).
  set (F := fun c => ("v", b) :: ("k", CV (kind_type kk) None key) :: T0 c).
  change (("v", b) :: ("k", CV (kind_type kk) None key) :: T0 pre) with (F pre).
  assert (kind_type kk = TKind kk) as Kt by (destruct kk; try discriminate KK; reflexivity).
  destruct (single_leaves (F pre) fn (LAt "tmpContainer") (CVar "v") vk (SKey s key) x (fun y => F (pre ++ [(key, y)]))) with (num := num) as (Q & _ & Ex); auto.
  - intros Q TQ. cbn [ceval]. rewrite lookup_temp by (auto; cbn; intros [?|[?|[]]]; discriminate). reflexivity.
  - intros Q own y TQ Fr. cbn [cwrite]. rewrite !lookup_temp by (auto; cbn; intros [?|[?|[]]]; discriminate).
    unfold F, T0. rewrite Kt. cbn [clookup String.eqb Ascii.eqb Bool.eqb]. cbn [cput_at]. rewrite Fr, !same_type_refl. cbn [andb].
    rewrite map_set_new.
    + apply assign_temp; [assumption|cbn; intros [?|[?|[]]]; discriminate|reflexivity].
    + intros e He. destruct (Unmarshal.key_eqb key (fst e)) eqn:Ek; [|reflexivity]. exfalso.
      assert (key = fst e) as ->. { apply (key_eqb_wt sc kk); auto; [apply (HK (key, x)); apply in_or_app; right; now left|apply HK; apply in_or_app; now left]. }
      rewrite map_app in ND. cbn [map fst] in ND. apply NoDup_remove_2 in ND. apply ND. apply in_or_app. left. now apply in_map.
  - rewrite Ex. unfold F. set (y := cloneFieldSingular sc rec (SKey s key) vk x).
    change (Q ++ ("v", b) :: ("k", CV (kind_type kk) None key) :: T0 (pre ++ [(key, y)]))
      with (Q ++ [("v", b); ("k", CV (kind_type kk) None key)] ++ T0 (pre ++ [(key, y)])).
    rewrite app_assoc, (cleave_drop _ (T0 pre) (T0 (pre ++ [(key, y)]))) by reflexivity.
    unfold T0. rewrite IH.
    + rewrite <- app_assoc. reflexivity.
    + intros e He. rewrite <- app_assoc in He. cbn [app] in He. apply in_app_or in He as [He|[<-|He]];
        [apply HK; apply in_or_app; now left|apply (HK (key, x)); apply in_or_app; right; now left|apply HK; apply in_or_app; right; now right].
    + rewrite <- app_assoc. cbn [app]. rewrite map_app in *. exact ND.
    + intros e He. apply H. now right.
Qed.

Lemma lookup_env Q x o M : temp Q -> In x ["rhs"; "r"; "m"] -> clookup x (Q ++ [("r", o); ("m", M)]) = clookup x [("r", o); ("m", M)].
Proof. intros T H. apply lookup_temp; [assumption|]. cbn in *. intuition subst; discriminate. Qed.

(** A member of [r], which holds [o], set by one of the statements of the first pass, and by the
    guarded ones of the second. *)
Lemma direct_runs num fn mem k st x o (o' : val -> cval) M :
  cselect sc M mem = Some (CV (kind_type k) (Some (st :: path)) x) ->
  (forall own y, fresh (kind_type k) own y = true -> cput sc o mem (CV (kind_type k) own y) = Some (o' y)) ->
  k <> KBytes -> wt_elem sc k x -> (vdepth x < n)%nat ->
  exec num (gen_single dp fn (LSel "r" mem) (CSel (CVar "m") mem) k) [("r", o); ("m", M)]
  = CNext [("r", o' (cloneFieldSingular sc rec st k x)); ("m", M)].
Proof.
  intros S P NB T Dx.
  destruct (single_leaves [("r", o); ("m", M)] fn (LSel "r" mem) (CSel (CVar "m") mem) k st x (fun y => [("r", o' y); ("m", M)])) with (num := num) as (Q & NQ & Ex); auto.
  - intros Q TQ. cbn [ceval]. rewrite lookup_env by (auto; cbn; auto). cbn [clookup String.eqb Ascii.eqb Bool.eqb]. exact S.
  - intros Q own y TQ Fr. cbn [cwrite]. rewrite lookup_env by (auto; cbn; auto). cbn [clookup String.eqb Ascii.eqb Bool.eqb]. rewrite (P _ _ Fr).
    apply assign_temp; [assumption|cbn; intros [?|[?|[]]]; discriminate|reflexivity].
  - rewrite Ex, (NQ NB). reflexivity.
Qed.
Lemma ref_runs num fn mem lbl k st x o (o' : val -> cval) M :
  cselect sc M mem = Some (CV (kind_type k) (Some (st :: path)) x) ->
  (forall own y, fresh (kind_type k) own y = true -> cput sc o mem (CV (kind_type k) own y) = Some (o' y)) ->
  is_scalar k = false -> (forall p, lbl <> LRepeated p) -> wt_elem sc k x -> (vdepth x < n)%nat ->
  exec num (gen_ref dp fn mem (TField lbl k)) [("r", o); ("m", M)]
  = CNext [("r", if is_nil x then o else o' (cloneFieldSingular sc rec st k x)); ("m", M)].
Proof.
  intros S P NS NR T Dx. unfold gen_ref.
  replace (match lbl with LRepeated _ => _ | _ => _ end) with (gen_single dp fn (LSel "r" mem) (CVar "rhs") k)
    by (destruct lbl; rewrite ?NS; try reflexivity; now destruct (NR packed)).
  cbn [cexec ceval]. cbn [clookup String.eqb Ascii.eqb Bool.eqb]. rewrite S.
  assert (cnil (CV (kind_type k) (Some (st :: path)) x) = Some (is_nil x)) as -> by (destruct k; try discriminate NS; reflexivity).
  destruct (is_nil x); [reflexivity|].
  set (g := CV (kind_type k) (Some (st :: path)) x).
  destruct (single_leaves (("rhs", g) :: [("r", o); ("m", M)]) fn (LSel "r" mem) (CVar "rhs") k st x (fun y => [("rhs", g); ("r", o' y); ("m", M)])) with (num := num) as (Q & _ & Ex); auto.
  - intros Q TQ. cbn [ceval]. rewrite lookup_temp by (auto; cbn; intros [?|[?|[]]]; discriminate). reflexivity.
  - intros Q own y TQ Fr. cbn [cwrite]. rewrite lookup_temp by (auto; cbn; intros [?|[?|[]]]; discriminate). cbn [clookup String.eqb Ascii.eqb Bool.eqb]. rewrite (P _ _ Fr).
    apply assign_temp; [assumption|cbn; intros [?|[?|[]]]; discriminate|reflexivity].
  - rewrite Ex. set (y := cloneFieldSingular sc rec st k x).
    change (Q ++ [("rhs", g); ("r", o' y); ("m", M)]) with (Q ++ [("rhs", g)] ++ [("r", o' y); ("m", M)]). rewrite app_assoc.
    now apply (cleave_drop _ [("r", o); ("m", M)]).
Qed.


Section Msg.
Variable m : nat.
Variables (s : list val) (uk : list Z) (hd : list (list val)).
Notation M := (CV (TMsg m) (Some path) (VMsg s uk hd)).
(** The variables of the method: the clone so far and the original. *)
Definition env (r : list val) (u : list Z) (h : list (list val)) : cenv :=
  [("r", CV (TMsg m) None (VMsg r u h)); ("m", M)].
(** What the statements of a field, or of the oneof it represents, do to the clone. *)
Definition val_of (f : fdesc) (x cur : val) : val :=
  if is_oneof f then clone_oneof sc rec (md_of sc m) (f_slot f) x cur else clone_field sc rec f x cur.
Definition upd (r : list val) (f : fdesc) : list val :=
  list_set r (f_slot f) (val_of f (slot s (f_slot f)) (slot r (f_slot f))).
Definition hupd (h : list (list val)) (f : fdesc) : list (list val) :=
  match f_ty f, slot s (f_slot f) with
  | TField (LRepeated _) _, VList _ => list_set h (f_slot f) []
  | _, _ => h
  end.
(** What the object obtained holds where the original may hold nil. *)
Definition quiet (f : fdesc) (cur : val) : Prop :=
  match f_ty f with TField (LOptional | LRequired) k => sub_of k <> None -> cur = VNil | _ => True end.

Lemma cselect_slot f : In f (md_fields (md_of sc m)) -> is_oneof f = false ->
  cselect sc M (MSlot (f_slot f)) = Some (CV (field_type (f_ty f)) (Some (SField (f_slot f) :: path)) (slot s (f_slot f))).
Proof. intros Hf O. cbn [cselect]. rewrite (cfind_slot m f Hf O), O. reflexivity. Qed.
Lemma cput_slot f r u h own y : In f (md_fields (md_of sc m)) -> is_oneof f = false -> fresh (field_type (f_ty f)) own y = true ->
  cput sc (CV (TMsg m) None (VMsg r u h)) (MSlot (f_slot f)) (CV (field_type (f_ty f)) own y)
  = Some (CV (TMsg m) None (VMsg (list_set r (f_slot f) y) u (match field_type (f_ty f) with TSlice _ => list_set h (f_slot f) [] | _ => h end))).
Proof. intros Hf O Fr. cbn [cput]. rewrite Fr, (cfind_slot m f Hf O), O, same_type_refl. reflexivity. Qed.

Lemma opt_wt k x : sub_of k <> None \/ k = KBytes ->
  (x = VNil \/ (exists y, x = VPtr y /\ (is_num k = true \/ k = KString) /\ wt_elem sc k y) \/ (is_num k = false /\ k <> KString /\ wt_elem sc k x)) -> wt_elem sc k x.
Proof.
  intros K [->|[(y & _ & N & _)|(_ & _ & T)]]; [| |exact T].
  - destruct K as [K| ->]; [|constructor]. destruct (sub_of k) eqn:Sk; [|congruence]. econstructor. exact Sk.
  - exfalso. destruct K as [K| ->]; destruct N as [N|N]; try discriminate. + destruct k; cbn in *; congruence. + subst. cbn in K. congruence.
Qed.

Lemma direct_field num f r u h : In f (md_fields (md_of sc m)) -> is_oneof f = false -> direct dp f = true ->
  wt_field sc (md_of sc m) f (slot s (f_slot f)) -> (vdepth (slot s (f_slot f)) < n)%nat ->
  exec num (gen_direct dp f) (env r u h) = CNext (env (upd r f) u (hupd h f)).
Proof.
  intros Hf O Di T Dx. apply wt_field_inv in T. pose proof (wf_ty sc m f W Hf) as WT.
  pose proof (cselect_slot f Hf O) as SE. pose proof (fun r u h own y => cput_slot f r u h own y Hf O) as PU.
  unfold upd, val_of. rewrite O. unfold hupd, gen_direct, clone_field, direct, env in *. set (x := slot s (f_slot f)) in *.
  destruct (f_ty f) as [lbl k|kk vk] eqn:Ty; [|discriminate].
  destruct lbl as [| | |pk|]; try discriminate Di; cbn [field_type] in *.
  - assert (sub_of k = None) as Sk by (cbn in WT; apply andb_true_iff in WT as [_ WT]; destruct (sub_of k); [discriminate|reflexivity]).
    assert (is_scalar k = true) as Sc by (destruct k; try discriminate Sk; try discriminate Di; reflexivity).
    rewrite (direct_runs num (f_num f) (MSlot (f_slot f)) k (SField (f_slot f)) x _
      (fun y => CV (TMsg m) None (VMsg (list_set r (f_slot f) y) u h)) M); auto.
    + destruct k; try discriminate Sc; reflexivity.
    + intros own y Fr. rewrite PU by exact Fr. destruct k; try discriminate Sc; reflexivity.
    + intros ->. discriminate Sc.
  - assert (exists m', sub_of k = Some m' /\ dp m' <> DOther) as (m' & Sk & Dm).
    { destruct k; try discriminate Di; cbn [classify sub_of] in *; eexists; (split; [reflexivity|]); intros E; rewrite E in Di; discriminate. }
    assert (match k with KMessage _ | KGroup _ | KBytes => kind_type k | _ => TPtr k end = kind_type k) as Ft by (destruct k; try discriminate Sk; reflexivity).
    rewrite Ft in *.
    rewrite (direct_runs num (f_num f) (MSlot (f_slot f)) k (SField (f_slot f)) x _
      (fun y => CV (TMsg m) None (VMsg (list_set r (f_slot f) y) u h)) M); auto.
    + destruct k; try discriminate Sk; injection Sk as ->; cbn [classify]; rewrite (D _ Dm); reflexivity.
    + intros own y Fr. rewrite PU by exact Fr. destruct k; try discriminate Sk; reflexivity.
    + intros ->. discriminate Sk.
    + apply opt_wt; [left; congruence|exact T].
  - assert (exists m', sub_of k = Some m' /\ dp m' <> DOther) as (m' & Sk & Dm).
    { destruct k; try discriminate Di; cbn [classify sub_of] in *; eexists; (split; [reflexivity|]); intros E; rewrite E in Di; discriminate. }
    assert (match k with KMessage _ | KGroup _ | KBytes => kind_type k | _ => TPtr k end = kind_type k) as Ft by (destruct k; try discriminate Sk; reflexivity).
    rewrite Ft in *.
    rewrite (direct_runs num (f_num f) (MSlot (f_slot f)) k (SField (f_slot f)) x _
      (fun y => CV (TMsg m) None (VMsg (list_set r (f_slot f) y) u h)) M); auto.
    + destruct k; try discriminate Sk; injection Sk as ->; cbn [classify]; rewrite (D _ Dm); reflexivity.
    + intros own y Fr. rewrite PU by exact Fr. destruct k; try discriminate Sk; reflexivity.
    + intros ->. discriminate Sk.
    + apply opt_wt; [left; congruence|exact T].
Qed.

Lemma clone_scalars s' k l : forall i, is_scalar k = true -> clone_list sc rec s' k i l = l.
Proof.
  intros i Sc. revert i. induction l as [|x l IH]; intros i; [reflexivity|]. cbn [clone_list]. rewrite IH. f_equal.
  unfold cloneFieldSingular. destruct k; try discriminate Sc; reflexivity.
Qed.

Lemma opt_field num f lbl k r u h : In f (md_fields (md_of sc m)) -> f_ty f = TField lbl k -> lbl = LOptional \/ lbl = LRequired -> direct dp f = false ->
  wt_field sc (md_of sc m) f (slot s (f_slot f)) -> (vdepth (slot s (f_slot f)) < n)%nat -> quiet f (slot r (f_slot f)) ->
  exec num (gen_ref dp (f_num f) (MSlot (f_slot f)) (f_ty f)) (env r u h) = CNext (env (upd r f) u (hupd h f)).
Proof.
  intros Hf Ty Lb Di T Dx Qt. assert (is_oneof f = false) as O by (unfold is_oneof; rewrite Ty; destruct Lb as [->| ->]; reflexivity).
  apply wt_field_inv in T.
  pose proof (cselect_slot f Hf O) as SE. pose proof (fun r u h own y => cput_slot f r u h own y Hf O) as PU.
  assert (hupd h f = h) as -> by (unfold hupd; rewrite Ty; destruct Lb as [->| ->]; reflexivity).
  unfold upd, val_of. rewrite O. rewrite Ty in SE, PU, T |- *. unfold clone_field, direct, quiet, env in *. rewrite Ty in Di, Qt |- *. set (x := slot s (f_slot f)) in *. set (cur := slot r (f_slot f)) in *.
  assert (x = VNil \/ (exists y, x = VPtr y /\ (is_num k = true \/ k = KString) /\ wt_elem sc k y) \/ (is_num k = false /\ k <> KString /\ wt_elem sc k x)) as T'
    by (destruct Lb as [->| ->]; exact T). clear T.
  match goal with |- _ = CNext [(_, CV _ _ (VMsg (list_set r (f_slot f) ?v) _ _)); _] =>
    assert (v = match classify k with
      | CByt => if is_nil x then cur else VBytes (vbytes x)
      | CMsg m | CGrp m => if md_foreign (md_of sc m) then if is_nil x then cur else cloneFieldSingular sc rec (SField (f_slot f)) k x else cloneFieldSingular sc rec (SField (f_slot f)) k x
      | _ => if is_nil x then cur else VPtr (deref x) end) as -> by (destruct Lb as [->| ->]; reflexivity) end.
  destruct (is_scalar k) eqn:Sc.
  - assert (field_type (TField lbl k) = TPtr k) as Ft by (destruct Lb as [->| ->]; destruct k; try discriminate Sc; reflexivity). rewrite Ft in *.
    assert (forall A (a b : A) c, match classify k with CByt => a | CMsg _ | CGrp _ => c | _ => b end = b) as Cl by (destruct k; try discriminate Sc; reflexivity).
    replace (match classify k with CByt => if is_nil x then cur else VBytes (vbytes x) | CMsg _ | CGrp _ => _ | _ => if is_nil x then cur else VPtr (deref x) end)
      with (if is_nil x then cur else VPtr (deref x)) by (destruct k; try discriminate Sc; reflexivity).
    unfold gen_ref. replace (match lbl with LRepeated _ => _ | _ => _ end) with (cblock [CDef "tmpVal" (CStar (CVar "rhs")); CSet (LSel "r" (MSlot (f_slot f))) (CAddr "tmpVal")])
      by (destruct Lb as [->| ->]; rewrite Sc; reflexivity).
    cbn [cexec ceval]. cbn [clookup String.eqb Ascii.eqb Bool.eqb]. rewrite SE. cbn [cnil].
    destruct T' as [E|[(y & E & _ & Ty')|(N & N' & T')]]; [| |exfalso; destruct k; try discriminate Sc; try discriminate N; congruence]; rewrite E in *; cbn [is_nil deref].
    + unfold cur. rewrite list_set_slot. reflexivity.
    + cbn [cblock cexec ceval]. cbn [clookup String.eqb Ascii.eqb Bool.eqb cwrite]. rewrite PU by reflexivity. reflexivity.
  - assert (field_type (TField lbl k) = kind_type k) as Ft by (destruct Lb as [->| ->]; destruct k; try discriminate Sc; reflexivity). rewrite Ft in *.
    assert (sub_of k <> None \/ k = KBytes) as K by (destruct k; try discriminate Sc; cbn; auto; left; discriminate).
    rewrite (ref_runs num (f_num f) (MSlot (f_slot f)) lbl k (SField (f_slot f)) x _
      (fun y => CV (TMsg m) None (VMsg (list_set r (f_slot f) y) u h)) M); auto using opt_wt.
    + f_equal. f_equal. f_equal. destruct K as [K| ->].
      * assert (cur = VNil) as Ec by (destruct Lb as [->| ->]; auto). rewrite <- (list_set_slot r (f_slot f)) at 1. fold cur. rewrite Ec.
        assert (cloneFieldSingular sc rec (SField (f_slot f)) k VNil = VNil \/ exists m', sub_of k = Some m' /\ md_foreign (md_of sc m') = true) as Nl.
        { unfold cloneFieldSingular. destruct k; try discriminate Sc; cbn [classify sub_of] in *; try congruence;
            (match goal with |- context [md_foreign ?d] => destruct (md_foreign d) eqn:F end; [right; eexists; split; [reflexivity|exact F]|left; apply RN]). }
        destruct k; try discriminate Sc; cbn [classify sub_of] in *; try congruence;
          (match goal with |- context [md_foreign ?d] => destruct (md_foreign d) eqn:F end; destruct x; cbn [is_nil]; try reflexivity;
           destruct Nl as [-> |(m' & E & F')]; [reflexivity|injection E as <-; congruence]).
      * cbn [classify]. destruct (is_nil x); [unfold cur; rewrite list_set_slot; reflexivity|reflexivity].
    + intros own y Fr. rewrite PU by exact Fr. destruct k; try discriminate Sc; reflexivity.
    + intros p ->. destruct Lb; discriminate.
Qed.

Lemma ref_field num f r u h : In f (md_fields (md_of sc m)) -> is_oneof f = false -> direct dp f = false ->
  wt_field sc (md_of sc m) f (slot s (f_slot f)) -> (vdepth (slot s (f_slot f)) < n)%nat -> quiet f (slot r (f_slot f)) ->
  exec num (gen_ref dp (f_num f) (MSlot (f_slot f)) (f_ty f)) (env r u h) = CNext (env (upd r f) u (hupd h f)).
Proof.
  intros Hf O Di T Dx Qt. destruct (f_ty f) as [[| | |pk|] k|kk vk] eqn:Ty; rewrite <- Ty.
  2,3: eapply opt_field; eauto.
  3: unfold is_oneof in O; rewrite Ty in O; discriminate.
  all: apply wt_field_inv in T; pose proof (wf_ty sc m f W Hf) as WT;
    pose proof (cselect_slot f Hf O) as SE; pose proof (fun r u h own y => cput_slot f r u h own y Hf O) as PU;
    unfold upd, val_of; rewrite O; unfold hupd, clone_field, direct, env in *; rewrite Ty in *; set (x := slot s (f_slot f)) in *; set (cur := slot r (f_slot f)) in *.
  - assert (sub_of k = None) as Sk by (cbn in WT; apply andb_true_iff in WT as [_ WT]; destruct (sub_of k); [discriminate|reflexivity]).
    assert (k = KBytes) as -> by (destruct k; try discriminate Sk; try discriminate Di; reflexivity). cbn [classify field_type kind_type] in *.
    rewrite (ref_runs num (f_num f) (MSlot (f_slot f)) LImplicit KBytes (SField (f_slot f)) x _
      (fun y => CV (TMsg m) None (VMsg (list_set r (f_slot f) y) u h)) M); auto; try discriminate.
    destruct (is_nil x); [unfold cur; rewrite list_set_slot; reflexivity|reflexivity].
  - cbn [field_type] in *. unfold gen_ref. cbn [cexec ceval]. cbn [clookup String.eqb Ascii.eqb Bool.eqb]. rewrite SE. cbn [cnil].
    destruct T as [E|(l & E & Tl)]; rewrite E in *; cbn [is_nil].
    { unfold cur. rewrite list_set_slot. reflexivity. }
    cbn [cblock]. rewrite cexec_seq. cbn [cexec ceval]. cbn [clookup String.eqb Ascii.eqb Bool.eqb clen].
    set (E1 := ("rhs", CV (TSlice k) (Some (SField (f_slot f) :: path)) (VList l)) :: [("r", CV (TMsg m) None (VMsg r u h)); ("m", M)]).
    assert (exec num (if is_scalar k then CCopy (LVar "tmpContainer") (CVar "rhs") else CRange (CVar "rhs") (gen_single dp (f_num f) (LAt "tmpContainer") (CVar "v") k))
      (("tmpContainer", CV (TSlice k) None (VList (repeat (zero_kind k) (List.length l)))) :: E1)
      = CNext (("tmpContainer", CV (TSlice k) None (VList (clone_list sc rec (f_slot f) k 0 l))) :: E1)) as ->.
    { destruct (is_scalar k) eqn:Sc.
      - unfold E1. cbn [cexec ceval cread]. cbn [clookup String.eqb Ascii.eqb Bool.eqb ccopy vlist]. rewrite same_type_refl.
        assert (forallb (fresh (kind_type k) (Some (SField (f_slot f) :: path))) l = true) as ->.
        { apply forallb_forall. intros y _. destruct k; try discriminate Sc; reflexivity. }
        cbn [andb]. rewrite overwrite_all by apply repeat_length. rewrite clone_scalars by exact Sc. reflexivity.
      - change (cloop (exec num (gen_single dp (f_num f) (LAt "tmpContainer") (CVar "v") k)) (citems_at k (Some (SField (f_slot f) :: path)) 0 l)
          (("tmpContainer", CV (TSlice k) None (VList (repeat (zero_kind k) (List.length l)))) :: E1)
          = CNext (("tmpContainer", CV (TSlice k) None (VList (clone_list sc rec (f_slot f) k 0 l))) :: E1)).
        apply (loop_fill num (f_num f) (f_slot f) k E1 l []). intros y Hy. pose proof (depth_list y l Hy). split; [auto|lia]. }
    unfold E1. cbn [clookup String.eqb Ascii.eqb Bool.eqb cwrite]. rewrite PU by reflexivity. reflexivity.
  - cbn [field_type] in *. unfold gen_ref. cbn [cexec ceval]. cbn [clookup String.eqb Ascii.eqb Bool.eqb]. rewrite SE. cbn [cnil].
    destruct T as [E|(l & E & T1 & T2 & T3)]; rewrite E in *; cbn [is_nil].
    { unfold cur. rewrite list_set_slot. reflexivity. }
    cbn [cblock]. rewrite cexec_seq. cbn [cexec ceval]. cbn [clookup String.eqb Ascii.eqb Bool.eqb clen].
    set (E1 := ("rhs", CV (TMapOf kk vk) (Some (SField (f_slot f) :: path)) (VMap l)) :: [("r", CV (TMsg m) None (VMsg r u h)); ("m", M)]).
    cbn [citems].
    assert (key_kind kk = true) as KK by (cbn in WT; apply andb_true_iff in WT as [WT _]; now apply andb_true_iff in WT as [KK _]).
    rewrite (loop_entries num (f_num f) (f_slot f) kk vk E1 l KK []).
    + unfold E1. cbn [clookup String.eqb Ascii.eqb Bool.eqb cwrite]. rewrite PU by reflexivity. reflexivity.
    + exact T1.
    + exact T3.
    + intros e He. pose proof (depth_map e l He). split; [auto|lia].
Qed.

(** The method of a wrapper. *)
Lemma clone_wrapper_run g k i x (known : bool) :
  In g (md_fields (md_of sc m)) -> f_ty g = TField LOneof k -> wt_elem sc k x -> (vdepth x < n)%nat ->
  cresult (exec 0 (gen_clone_wrapper dp known m g)
    [("m", (if known then CC m (f_num g) else CV (TWrap m (f_num g))) (Some (SWrap i :: path)) (VOneof (f_num g) x))])
  = Some (wrap_val known m (f_num g) (VOneof (f_num g) (clone_member sc rec i k x))).
Proof.
  intros Hg Ty T Dx. unfold gen_clone_wrapper. rewrite Ty.
  assert (find_field (f_num g) (md_fields (md_of sc m)) = Some g) as FF by (apply (find_member sc W); assumption).
  set (R := (if known then CC m (f_num g) else CV (TWrap m (f_num g))) (Some (SWrap i :: path)) (VOneof (f_num g) x)).
  cbn [cblock]. rewrite cexec_seq. cbn [cexec ceval]. cbn [clookup String.eqb Ascii.eqb Bool.eqb].
  assert (cnil R = Some false) as -> by (unfold R; destruct known; reflexivity).
  rewrite FF, Ty. set (o := fun y => wrap_val known m (f_num g) (VOneof (f_num g) y)).
  assert (cselect sc R (MIn (f_num g)) = Some (CV (kind_type k) (Some (SField i :: path)) x)) as SE.
  { unfold R. destruct known; cbn [cselect]; rewrite Z.eqb_refl, FF, Ty; reflexivity. }
  assert (forall own y z, fresh (kind_type k) own y = true -> cput sc (o z) (MIn (f_num g)) (CV (kind_type k) own y) = Some (o y)) as PU.
  { intros own y z Fr. unfold o, wrap_val. destruct known; cbn [cput]; rewrite Fr, Z.eqb_refl, FF, Ty, same_type_refl; reflexivity. }
  match goal with |- context [exec 0 ?st _] =>
    assert (exec 0 st [("r", o (zero_kind k)); ("m", R)] = CNext [("r", o (clone_member sc rec i k x)); ("m", R)]) as Q end.
  { match goal with |- exec 0 (if ?c then _ else _) _ = _ => destruct c eqn:Ci end.
    - rewrite (direct_runs 0 (f_num g) (MIn (f_num g)) k (SField i) x _ o R); auto.
      + destruct k; try discriminate Ci; try reflexivity; cbn [clone_member classify] in *; unfold clone_member; cbn [classify] in *;
          (match goal with |- context [md_foreign (md_of sc ?d)] => rewrite (D d) by (intros E; rewrite E in Ci; discriminate) end; reflexivity).
      + intros ->. discriminate Ci.
    - assert (is_scalar k = false) as Sc by (destruct k; try discriminate Ci; reflexivity).
      rewrite (ref_runs 0 (f_num g) (MIn (f_num g)) LOneof k (SField i) x _ o R); auto; try discriminate.
      f_equal. f_equal. f_equal. unfold clone_member, o. destruct k; try discriminate Sc; cbn [classify] in *; destruct x; try reflexivity; cbn [is_nil];
        unfold cloneFieldSingular; cbn [classify]; destruct (md_foreign _); try reflexivity; rewrite RN; reflexivity. }
  unfold o in *. rewrite Q. reflexivity.
Qed.

(** A oneof. *)
Lemma clone_oneof_field num f r u h (known : bool) :
  (forall nm x, slot s (f_slot f) = VOneof nm x ->
     call ((if known then CC m nm else CV (TWrap m nm)) (Some (SWrap (f_slot f) :: path)) (VOneof nm x))
     = Some (wrap_val known m nm (clone_oneof sc rec (md_of sc m) (f_slot f) (VOneof nm x) (slot r (f_slot f))))) ->
  In f (md_fields (md_of sc m)) -> is_oneof f = true -> wt_field sc (md_of sc m) f (slot s (f_slot f)) ->
  exec num (gen_clone_oneof known (md_of sc m) (f_slot f)) (env r u h) = CNext (env (upd r f) u (hupd h f)).
Proof.
  intros CW Hf O T. destruct (cfind_oneof m f Hf O) as (fo & Fo & Oo). unfold upd, val_of, hupd. rewrite O.
  apply wt_field_inv in T. pose proof O as O'. unfold is_oneof in O'. destruct (f_ty f) as [[| | |q|] k|] eqn:Ty; try discriminate O'. clear O'.
  assert (cselect sc M (MSlot (f_slot f)) = match slot s (f_slot f) with
    | VOneof num x => Some (CV (TWrap m num) (Some (SWrap (f_slot f) :: path)) (VOneof num x))
    | VNil => Some (CV TNone (Some (SWrap (f_slot f) :: path)) VNil) | _ => None end) as SE by (cbn [cselect]; rewrite Fo, Oo; reflexivity).
  unfold gen_clone_oneof, env. cbn [cexec ceval]. cbn [clookup String.eqb Ascii.eqb Bool.eqb]. rewrite SE.
  destruct T as [E|(g & kg & x & E & Hg & Sg & Tg & Tx)]; rewrite E in *.
  { cbn [cnil is_nil clone_oneof]. rewrite list_set_slot. reflexivity. }
  cbn [cnil is_nil]. specialize (CW _ _ eq_refl).
  set (y := clone_oneof sc rec (md_of sc m) (f_slot f) (VOneof (f_num g) x) (slot r (f_slot f))) in *.
  assert (cput sc (CV (TMsg m) None (VMsg r u h)) (MSlot (f_slot f)) (CV (TWrap m (f_num g)) None y) = Some (CV (TMsg m) None (VMsg (list_set r (f_slot f) y) u h))) as PU.
  { cbn [cput fresh]. rewrite Fo, Oo, Nat.eqb_refl. reflexivity. }
  destruct known.
  - cbn [cexec ceval]. cbn [clookup String.eqb Ascii.eqb Bool.eqb]. rewrite SE.
    match goal with |- cleave ?E0 (cleave _ (exec _ (gen_clone_cases _ ?l) (?c :: _))) = _ =>
      assert (forall l', In g l' -> exec (f_num g) (gen_clone_cases (f_slot f) l') (c :: E0) = CNext (c :: [("r", CV (TMsg m) None (VMsg (list_set r (f_slot f) y) u h)); ("m", M)])) as CS end.
    { induction l' as [|g' l' IH]; intros Hi; [destruct Hi|]. cbn [gen_clone_cases cexec]. destruct (f_num g' =? f_num g) eqn:Ng.
      - apply Z.eqb_eq in Ng. rewrite Ng. cbn [ceval]. cbn [clookup String.eqb Ascii.eqb Bool.eqb]. rewrite Z.eqb_refl, CW. cbn [wrap_val]. rewrite Z.eqb_refl.
        cbn [cwrite]. cbn [clookup String.eqb Ascii.eqb Bool.eqb]. rewrite PU. reflexivity.
      - destruct Hi as [->|Hi]; [rewrite Z.eqb_refl in Ng; discriminate|]. now apply IH. }
    rewrite CS; [reflexivity|]. apply filter_In. split; [assumption|]. unfold is_oneof. rewrite Tg, Sg, Nat.eqb_refl. reflexivity.
  - cbn [cexec ceval]. cbn [clookup String.eqb Ascii.eqb Bool.eqb]. rewrite SE, CW. cbn [wrap_val cwrite]. cbn [clookup String.eqb Ascii.eqb Bool.eqb]. rewrite PU. reflexivity.
Qed.

(** Statements one after the other. *)
Lemma seq_runs (gen : fdesc -> cstmt) u rest num l : forall r h,
  (forall f r h, In f l -> quiet f (slot r (f_slot f)) -> exec num (gen f) (env r u h) = CNext (env (upd r f) u (hupd h f))) ->
  NoDup (map f_slot l) -> (forall f, In f l -> quiet f (slot r (f_slot f))) ->
  exec num (cblock (map gen l ++ rest)) (env r u h) = exec num (cblock rest) (env (fold_left upd l r) u (fold_left hupd l h)).
Proof.
  induction l as [|f l IH]; intros r h G N Q; [reflexivity|]. cbn [map app cblock fold_left]. rewrite cexec_seq, G by (auto using in_eq).
  cbn [map] in N. inversion N as [|? ? N1 N2]; subst. apply IH; auto using in_cons.
  intros f' Hf'. unfold upd. rewrite slot_set_neq; [apply Q; now right|]. intros E. apply N1. rewrite E. now apply in_map.
Qed.

Lemma upd_perm l l' : Permutation l l' -> NoDup (map f_slot l) -> forall r, fold_left upd l r = fold_left upd l' r.
Proof.
  induction 1 as [|f l l' P IH|f g l|l l' l'' P1 IH1 P2 IH2]; intros N r.
  - reflexivity.
  - cbn [fold_left]. apply IH. now inversion N.
  - cbn [fold_left]. f_equal. inversion N as [|? ? N1 N2]; subst. assert (f_slot f <> f_slot g) as Ne by (intros E; apply N1; left; exact E).
    unfold upd. rewrite !slot_set_neq by auto. apply list_set_comm. auto.
  - rewrite IH1 by assumption. apply IH2. eapply Permutation_NoDup; [apply Permutation_map; exact P1|assumption].
Qed.
Lemma upd_other l i : forall r, ~ In i (map f_slot l) -> slot (fold_left upd l r) i = slot r i.
Proof.
  induction l as [|f l IH]; intros r N; [reflexivity|]. cbn [fold_left]. rewrite IH by (intros H; apply N; now right).
  unfold upd. apply slot_set_neq. intros E. apply N. left. exact E.
Qed.
End Msg.
End Body.

(** The two passes over the fields. *)
Fixpoint reps (seen : list nat) (fs : list fdesc) : list fdesc :=
  match fs with
  | [] => []
  | f :: fs' =>
      if is_oneof f then if existsb (Nat.eqb (f_slot f)) seen then reps seen fs' else f :: reps (f_slot f :: seen) fs'
      else reps seen fs'
  end.
Lemma reps_slots fs : forall seen, map f_slot (reps seen fs) = oneof_slots seen fs.
Proof.
  induction fs as [|f fs IH]; intros seen; [reflexivity|]. cbn [reps oneof_slots]. destruct (is_oneof f); [|apply IH].
  destruct (existsb _ seen); [apply IH|]. cbn [map]. now rewrite IH.
Qed.
Lemma reps_in fs : forall seen f, In f (reps seen fs) -> In f fs /\ is_oneof f = true.
Proof.
  induction fs as [|g fs IH]; intros seen f H; [destruct H|]. cbn [reps] in H. destruct (is_oneof g) eqn:O; [|destruct (IH _ _ H); split; [now right|assumption]].
  destruct (existsb _ seen); [destruct (IH _ _ H); split; [now right|assumption]|].
  destruct H as [->|H]; [split; [now left|assumption]|destruct (IH _ _ H); split; [now right|assumption]].
Qed.
Lemma ref_in fs : forall seen f, In f (ref_fields dp seen fs) -> In f fs /\ (is_oneof f = true \/ direct dp f = false).
Proof.
  induction fs as [|g fs IH]; intros seen f H; [destruct H|]. cbn [ref_fields] in H.
  destruct (is_oneof g) eqn:O; [destruct (existsb _ seen)|destruct (direct dp g) eqn:Di];
    try (destruct (IH _ _ H); split; [now right|assumption]);
    (destruct H as [->|H]; [split; [now left|auto]|destruct (IH _ _ H); split; [now right|assumption]]).
Qed.
Lemma pass_perm fs : forall seen,
  Permutation (filter (fun f => negb (is_oneof f) && direct dp f) fs ++ ref_fields dp seen fs)
              (filter (fun f => negb (is_oneof f)) fs ++ reps seen fs).
Proof.
  induction fs as [|f fs IH]; intros seen; [constructor|]. cbn [filter ref_fields reps]. destruct (is_oneof f) eqn:O; cbn [negb andb].
  - destruct (existsb _ seen); [apply IH|]. rewrite <- !Permutation_middle. constructor. apply IH.
  - destruct (direct dp f); cbn [app]; [constructor; apply IH|]. rewrite <- Permutation_middle. constructor. apply IH.
Qed.
Lemma members_nodup m : NoDup (map f_slot (filter (fun f => negb (is_oneof f)) (md_fields (md_of sc m)) ++ reps [] (md_fields (md_of sc m)))).
Proof.
  rewrite map_app, reps_slots.
  assert (forall a b : list nat, NoDup a -> NoDup b -> (forall x, In x a -> ~ In x b) -> NoDup (a ++ b)) as Nd.
  { induction a as [|x a IH]; intros b Na Nb Dj; [exact Nb|]. inversion Na as [|? ? N1 N2]; subst. cbn. constructor.
    - intros H. apply in_app_or in H as [H|H]; [contradiction|]. apply (Dj x); [now left|assumption].
    - apply IH; auto. intros y Hy. apply Dj. now right. }
  apply Nd; [apply (slots_nodup sc W)|apply oneof_slots_nodup|].
  intros i Hi Hj. apply in_map_iff in Hi as (f & <- & Hf). apply filter_In in Hf as [Hf O]. apply negb_true_iff in O.
  apply oneof_slots_in in Hj as (_ & g & Hg & Og & E). destruct (wf_compat sc m f g W Hf Hg) as [_ Q]; [intros ->; congruence|].
  destruct (Q (eq_sym E)) as [Of _]. congruence.
Qed.

Hypothesis AL : forall p m, blank sc m (al p m).
Hypothesis NP : forall p m, md_pool (md_of sc m) = false -> al p m = new_msg (md_of sc m).

(** The printed method computes [clone_msg]. *)
Theorem run_clone n : forall k path m v, (vdepth v < n)%nat -> (vdepth v < k)%nat -> wt_ptrmsg sc m v -> md_foreign (md_of sc m) = false ->
  run_CloneVT dp sc al n (CV (TMsg m) (Some path) v) = Some (CV (TMsg m) None (clone_msg sc al k path m v)).
Proof.
  induction n as [|n IH]; intros [|k] path m v Dn Dk T F; try lia. cbn [run_CloneVT clone_msg]. rewrite F.
  match goal with |- cresult (cexec sc al ?c _ _ _ _) = _ => set (call := c) end.
  set (rec := fun st => clone_msg sc al k (st :: path)).
  assert (forall st m a, wt_ptrmsg sc m a -> (vdepth a < Nat.min n k)%nat -> md_foreign (md_of sc m) = false ->
    run_CloneVT dp sc al n (CV (TMsg m) (Some (st :: path)) a) = Some (CV (TMsg m) None (rec st m a))) as C0.
  { intros. unfold rec. apply IH; auto; lia. }
  assert (forall st m a, wt_ptrmsg sc m a -> (vdepth a < Nat.min n k)%nat -> md_foreign (md_of sc m) = false ->
    call (CV (TMsg m) (Some (st :: path)) a) = Some (CV (TMsg m) None (rec st m a))) as C1 by exact C0.
  assert (forall st m, rec st m VNil = VNil) as RN by (intros; unfold rec; destruct k; reflexivity).
  unfold gen_clone. cbn [app cblock]. rewrite cexec_seq. cbn [cexec ceval]. cbn [clookup String.eqb Ascii.eqb Bool.eqb cnil].
  destruct T as [->|T]; [reflexivity|]. destruct T as [m s u h Ls Fs Bu]. cbn [is_nil].
  assert (exists r0 u0 h0, al path m = VMsg r0 u0 h0 /\ forall f, In f (md_fields (md_of sc m)) -> quiet f (slot r0 (f_slot f))) as (r0 & u0 & h0 & Ea & Q0).
  { destruct (AL path m) as [TA SA]. destruct TA as [m r ru rh Lr RF Br]. inversion SA as [? ? ? ? ? ? ? SF SU]; subst. exists r, ru, rh. split; [reflexivity|].
    intros f Hf. pose proof (SF f Hf) as SF'. rewrite (slot_zero sc m f W Hf) in SF'. unfold quiet.
    destruct (f_ty f) as [[| | |q|] kd|] eqn:Ty; try exact I; intros _; cbn [zero_of] in SF'.
    - exact (blank_unset sc f LOptional kd _ Ty (or_introl eq_refl) SF').
    - exact (blank_unset sc f LRequired kd _ Ty (or_intror eq_refl) SF'). }
  assert (ceval sc al call path [("m", CV (TMsg m) (Some path) (VMsg s u h))] (if md_pool (md_of sc m) then CPool m else CNew m) = Some (CV (TMsg m) None (VMsg r0 u0 h0))) as Al.
  { destruct (md_pool (md_of sc m)) eqn:Pl; cbn [ceval]; [now rewrite Ea|]. now rewrite <- (NP path m Pl), Ea. }
  rewrite Al. set (fs := md_fields (md_of sc m)) in *.
  assert (forall i, (vdepth (slot s i) < Nat.min n k)%nat) as Ds by (intros i; pose proof (depth_slot s i u h); lia).
  pose proof (members_nodup m) as ND. fold fs in ND. pose proof (pass_perm fs []) as PP.
  assert (NoDup (map f_slot (filter (fun f => negb (is_oneof f) && direct dp f) fs ++ ref_fields dp [] fs))) as ND'.
  { eapply Permutation_NoDup; [|exact ND]. apply Permutation_map. now apply Permutation_sym. }
  rewrite map_app in ND'.
  assert (forall a b : list nat, NoDup (a ++ b) -> NoDup a /\ NoDup b /\ forall x, In x b -> ~ In x a) as Nd.
  { induction a as [|x a IHa]; intros b N; [repeat split; [constructor|exact N|intros ? ? []]|]. cbn in N. inversion N as [|? ? N1 N2]; subst.
    destruct (IHa b N2) as (A & B & Dj). repeat split; [constructor; [intros H; apply N1; apply in_or_app; now left|exact A]|exact B|].
    intros y Hy [->|Hx]; [apply N1; apply in_or_app; now right|now apply (Dj y)]. }
  destruct (Nd _ _ ND') as (N1 & N2 & Dj). clear Nd ND'.
  fold (env path m s u h r0 u0 h0).
  rewrite (seq_runs call path path rec m s u h (gen_direct dp) u0 _ 0 (filter (fun f => negb (is_oneof f) && direct dp f) fs) r0 h0).
  2:{ intros f r hh Hf _. apply filter_In in Hf as [Hf Of]. apply andb_true_iff in Of as [Of Df]. apply negb_true_iff in Of.
      apply (direct_field call path path rec (Nat.min n k)); auto. }
  2:{ exact N1. }
  2:{ intros f Hf. apply filter_In in Hf as [Hf _]. now apply Q0. }
  set (p1 := filter (fun f => negb (is_oneof f) && direct dp f) fs) in *.
  rewrite (seq_runs call path path rec m s u h (gen_clone_field dp (is_known dp m) (md_of sc m)) u0 _ 0 (ref_fields dp [] fs)).
  2:{ intros f r hh Hf Qf. destruct (ref_in fs [] f Hf) as [Hf' Od]. unfold gen_clone_field. destruct (is_oneof f) eqn:Of.
      2:{ destruct Od as [?|Od]; [discriminate|]. apply (ref_field call path path rec (Nat.min n k)); auto. }
      apply (clone_oneof_field call path path rec); auto. intros num x E.
      pose proof (Fs f Hf') as Tf. pose proof (Ds (f_slot f)) as Df. rewrite E in Tf, Df. apply wt_field_inv in Tf. cbn [vdepth] in Df.
      unfold is_oneof in Of. destruct (f_ty f) as [[| | |q|] kd|] eqn:Ty; try discriminate Of.
      destruct Tf as [?|(g & kg & x0 & Ex & Hg & Sg & Tg & Tx)]; [discriminate|]. injection Ex as -> ->.
      assert (find_field (f_num g) (md_fields (md_of sc m)) = Some g) as FF by (apply (find_member sc W); assumption).
      transitivity (cresult (cexec sc al (run_CloneVT dp sc al n) (SWrap (f_slot f) :: path) 0 (gen_clone_wrapper dp (is_known dp m) m g)
        [("m", (if is_known dp m then CC m (f_num g) else CV (TWrap m (f_num g))) (Some (SWrap (f_slot f) :: path)) (VOneof (f_num g) x0))])).
      { unfold call. destruct (is_known dp m) eqn:Km; cbn match; rewrite Km, FF; reflexivity. }
      rewrite (clone_wrapper_run (run_CloneVT dp sc al n) path (SWrap (f_slot f) :: path) rec (Nat.min n k) C0 RN m g kg (f_slot f) x0); auto; try lia.
      cbn [clone_oneof]. now rewrite FF, Tg. }
  2:{ exact N2. }
  2:{ intros f Hf. rewrite upd_other; [apply Q0; now apply (ref_in fs [])|]. apply Dj. now apply in_map. }
  set (r1 := fold_left (upd rec m s) (ref_fields dp [] fs) (fold_left (upd rec m s) p1 r0)).
  set (h1 := fold_left (hupd s) (ref_fields dp [] fs) (fold_left (hupd s) p1 h0)).
  assert (r1 = fold_left (fun r s' => list_set r s' (clone_oneof sc rec (md_of sc m) s' (slot s s') (slot r s'))) (oneof_slots [] fs)
    (clone_assign s (clone_field sc rec) (filter (fun f => negb (is_oneof f)) fs) r0)) as Er.
  { unfold r1. rewrite <- fold_left_app, (upd_perm rec m s _ _ PP) by (eapply Permutation_NoDup; [|exact ND]; apply Permutation_map; now apply Permutation_sym).
    rewrite fold_left_app. rewrite <- (reps_slots fs []).
    assert (fold_left (upd rec m s) (filter (fun f => negb (is_oneof f)) fs) r0 = clone_assign s (clone_field sc rec) (filter (fun f => negb (is_oneof f)) fs) r0) as ->.
    { unfold clone_assign. assert (forall l r, (forall f, In f l -> is_oneof f = false) -> fold_left (upd rec m s) l r =
        fold_left (fun r f => list_set r (f_slot f) (clone_field sc rec f (slot s (f_slot f)) (slot r (f_slot f)))) l r) as Q.
      { induction l as [|f l IHl]; intros r Hl; [reflexivity|]. cbn [fold_left]. rewrite IHl by (intros; apply Hl; now right). f_equal.
        unfold upd, val_of. now rewrite (Hl f (or_introl eq_refl)). }
      apply Q. intros f Hf. apply filter_In in Hf as [_ Of]. now apply negb_true_iff. }
    generalize (clone_assign s (clone_field sc rec) (filter (fun f => negb (is_oneof f)) fs) r0).
    assert (forall f, In f (reps [] fs) -> is_oneof f = true) as Or by (intros f Hf; now apply (reps_in fs [])).
    revert Or. generalize (reps [] fs). induction l as [|f l IHl]; intros Or r; [reflexivity|]. cbn [fold_left map].
    rewrite IHl by (intros; apply Or; now right). f_equal. unfold upd, val_of. now rewrite (Or f (or_introl eq_refl)). }
  assert (h1 = clone_hid s fs h0) as Eh.
  { unfold h1. assert (fold_left (hupd s) p1 h0 = h0) as ->.
    { unfold p1. clear. induction fs as [|f l IHl]; [reflexivity|]. cbn [filter]. destruct (negb (is_oneof f) && direct dp f) eqn:Df; [|apply IHl].
      cbn [fold_left]. replace (hupd s h0 f) with h0; [apply IHl|]. apply andb_true_iff in Df as [_ Df]. unfold hupd. unfold direct in Df.
      destruct (f_ty f) as [[| | |q|] kd|]; try discriminate Df; reflexivity. }
    unfold clone_hid. fold (hupd s). clear. generalize (@nil nat) as seen. revert h0. induction fs as [|f l IHl]; intros h0 seen; [reflexivity|]. cbn [ref_fields fold_left].
    change (match f_ty f with TField (LRepeated _) _ => match slot s (f_slot f) with VList _ => list_set h0 (f_slot f) [] | _ => h0 end | _ => h0 end) with (hupd s h0 f).
    destruct (is_oneof f) eqn:Of.
    - assert (hupd s h0 f = h0) as Eq. { unfold hupd. unfold is_oneof in Of. destruct (f_ty f) as [[| | |q|] kd|]; try discriminate Of; reflexivity. }
      destruct (existsb _ seen); cbn [fold_left]; rewrite Eq; apply IHl.
    - destruct (direct dp f) eqn:Df; cbn [fold_left]; [|apply IHl].
      replace (hupd s h0 f) with h0; [apply IHl|]. unfold hupd. unfold direct in Df. destruct (f_ty f) as [[| | |q|] kd|]; try discriminate Df; reflexivity. }
  unfold clone_body. fold rec. rewrite Ea. fold fs. rewrite <- Er, <- Eh. clearbody r1 h1.
  unfold env. destruct (md_keep (md_of sc m)); [|reflexivity].
  cbn [app cblock]. rewrite cexec_seq. cbn [cexec ceval]. cbn [clookup String.eqb Ascii.eqb Bool.eqb cselect clen].
  destruct u as [|b u]; [reflexivity|]. cbn [List.length].
  cbn [cwrite]. cbn [clookup String.eqb Ascii.eqb Bool.eqb cput fresh cassign cnext].
  cbn [cexec ceval cread]. cbn [clookup String.eqb Ascii.eqb Bool.eqb cselect ccopy].
  rewrite overwrite_all by (rewrite repeat_length; reflexivity). reflexivity.
Qed.

Corollary run_CloneVT_ok n m v : (vdepth v < n)%nat -> wt_ptrmsg sc m v -> md_foreign (md_of sc m) = false ->
  run_CloneVT dp sc al n (CV (TMsg m) (Some []) v) = Some (CV (TMsg m) None (CloneVT_from sc al m v)).
Proof. intros L T F. apply run_clone; auto. Qed.
End Run.
