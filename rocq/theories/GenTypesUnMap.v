(** The printed cases of the fields in a oneof and of maps compile (GenUnmarshal.v,
    unmarshal.go:160-273, 286-781). *)
From Coq Require Import ZArith List Bool String Arith Lia.
From Verif Require Import Base Schema Value Helpers Typing Marshal Unmarshal GoSyntax GoMarshal GenSize GenMarshal GenSizeFacts GoUnmarshal GenUnmarshal GoTypes GenTypes GenTypesFacts GoTypesUnmarshal GenTypesUnmarshal.
Import ListNotations.
Open Scope string_scope.
Open Scope Z_scope.
Open Scope list_scope.


Section Unmarshal.
Variable sc : schema.
Variable dp : nat -> dispatch.
Variable wrap : bool.
Variable declared : string -> bool.
Variable pools pool : nat -> bool.
Variable unique : Z -> bool.
Variable unsafe : bool.
Hypothesis W : wf_schema sc = true.
Variable m : nat.
Hypothesis Hm : (m < List.length (sc_msgs sc))%nat.
Hypothesis Hw : if wrap then forall m', dp m' <> DLocal else dp m = DLocal.
Hypothesis DM : declared (meth_unmarshal unsafe) = true.
Hypothesis HP : forall a, pool a = true -> pools a = true.

Lemma un_in H r mp n s k : struct_of r = Some m -> slot_ty sc m s = Some (YOne m s) -> named sc m n = Some k ->
  in_ty sc m n = Some (kind_ty k) -> implements sc m s n = true -> wf_type (List.length (sc_msgs sc)) (TField LOneof k) = true ->
  ufield_ok sc dp wrap declared pools unsafe m H r (u_field dp pool unique unsafe mp (mkF n s (TField LOneof k))).
Proof.
  intros R S N IN IM T. unfold ufield_ok.
  assert (NM : forall a, k = KMessage a \/ k = KGroup a -> names_msg sc m n a = true) by (intros a [-> | ->]; unfold names_msg; rewrite N; apply msg_refl).
  destruct k; cbn in T; rewrite ?andb_false_r in T; try discriminate T; clear T.
  all: try match goal with _ : context [KMessage ?a] |- _ => specialize (NM a (or_introl eq_refl)); destruct (dp a) eqn:E; [| pose proof (not_wrapped dp wrap m Hw a E) as Ew |] end.
  all: destruct H as [h|].
  all: cbn [kind_ty] in IN.
  all: unfold GU; cbn [app].
  all: uopen.
  all: repeat match goal with |- context [if ?b then _ else _] => is_var b; destruct b; cbn [andb] end.
  all: repeat match goal with |- context [if ?b then _ else _] => destruct b eqn:?; cbn [andb] end.
  all: try match goal with P : pool _ = true |- _ => apply HP in P end.
  all: try match goal with _ : dp _ = _ |- _ => rewrite E end.
  all: abstract ufield.
Qed.

(** The variables in front of the switch of a map entry. *)
Definition GE (H : option nat) (r tk tv : gtyp) : ctx :=
  [("fieldNum", YI32); ("wire", YU64); ("entryPreIndex", YInt); ("mapvalue", tv); ("mapkey", tk); ("postIndex", YInt); ("msglen", YInt)] ++ GU H r.

Lemma un_entry H r n k u tk tv x : named sc m n = Some k \/ key_kind k = true -> is_group k = false ->
  (x = "mapkey" /\ tk = kind_ty k) \/ (x = "mapvalue" /\ tv = kind_ty k) ->
  exists w, ublk sc dp wrap declared pools m (meth_unmarshal unsafe) true (GE H r tk tv) (ublock (u_mapField dp unsafe n x k u)) = Some w.
Proof.
  intros N NG X.
  assert (NM : forall a, k = KMessage a -> names_msg sc m n a = true).
  { intros a ->. destruct N as [N|N]; [|discriminate N]. unfold names_msg. rewrite N. apply msg_refl. }
  assert (NE : k = KEnum -> named sc m n = Some KEnum).
  { intros ->. destruct N as [N|N]; [exact N|discriminate N]. }
  clear N.
  destruct X as [[-> ->]|[-> ->]]; destruct k; try discriminate NG; clear NG.
  all: try match goal with _ : context [KMessage ?a] |- _ => specialize (NM a eq_refl); destruct (dp a) eqn:E; [| pose proof (not_wrapped dp wrap m Hw a E) as Ew |] end.
  all: try specialize (NE eq_refl).
  all: destruct H as [h|].
  all: unfold GE, GU; cbn [app kind_ty].
  all: lazy beta iota zeta delta [u_mapField append]; uopen.
  all: repeat match goal with |- context [if ?b then _ else _] => is_var b; destruct b; cbn [andb] end.
  all: repeat match goal with |- context [if ?b then _ else _] => destruct b eqn:?; cbn [andb] end.
  all: try match goal with _ : dp _ = _ |- _ => rewrite E end.
  all: abstract (eexists; uk).
Qed.

Lemma close_none (G : ctx) u : close G (Some (G, u)) = Some (filter (fun i => Nat.ltb i (List.length G)) u).
Proof. unfold close. rewrite Nat.sub_diag. reflexivity. Qed.
Lemma close_blk br (G : ctx) s n G' u : List.length G = n ->
  ucheck sc dp wrap declared pools m (meth_unmarshal unsafe) br None n G s = Some (G', u) ->
  (forall i, In i (seq n (List.length G' - n)) -> In i u) -> exists w, ublk sc dp wrap declared pools m (meth_unmarshal unsafe) br G s = Some w.
Proof.
  intros <- A B. unfold ublk. rewrite A. unfold close. destruct (forallb _ _) eqn:E; [eauto|].
  apply Bool.not_true_iff_false in E. exfalso. apply E, forallb_forall. intros i I. apply existsb_exists. exists i. split; [apply B, I|apply Nat.eqb_refl].
Qed.
Lemma close_field H r l G' u :
  ucheck sc dp wrap declared pools m (meth_unmarshal unsafe) true None (List.length (GU H r)) (GU H r) (ublock l) = Some (G', u) ->
  var_ty G' "hasFields" = var_ty (GU H r) "hasFields" ->
  (forall i, In i (seq (List.length (GU H r)) (List.length G' - List.length (GU H r))) -> In i u) -> ufield_ok sc dp wrap declared pools unsafe m H r l.
Proof.
  intros A V B. exists G', u. unfold close. destruct (forallb _ _) eqn:E; [eexists; repeat split; eauto|].
  apply Bool.not_true_iff_false in E. exfalso. apply E, forallb_forall. intros i I. apply existsb_exists. exists i. split; [apply B, I|apply Nat.eqb_refl].
Qed.
Lemma same_kind k : same (kind_ty k) (kind_ty k) = true.
Proof. destruct k; try reflexivity; apply msg_refl. Qed.
Lemma elem_ok n k : named sc m n = Some k \/ key_kind k = true -> elem_ty sc m n k = Some (kind_ty k).
Proof.
  intros [N|K]; [|destruct k; try discriminate K; reflexivity].
  destruct k; try reflexivity; unfold elem_ty, names_msg; rewrite N; try reflexivity; rewrite msg_refl; reflexivity.
Qed.

Lemma un_map H r mp n s kk vk : struct_of r = Some m -> slot_ty sc m s = Some (YMap (kind_ty kk) (kind_ty vk)) -> named sc m n = Some vk ->
  key_kind kk = true -> is_group vk = false ->
  ufield_ok sc dp wrap declared pools unsafe m H r (u_field dp pool unique unsafe mp (mkF n s (TMap kk vk))).
Proof.
  intros R S N K V.
  pose proof (elem_ok n kk (or_intror K)) as EK. pose proof (elem_ok n vk (or_introl N)) as EV.
  assert (GK : is_group kk = false) by (destruct kk; try reflexivity; discriminate K).
  assert (CK : comparable (kind_ty kk) = true) by (destruct kk; try reflexivity; discriminate K).
  assert (AK : assignable (kind_ty kk) (kind_ty kk) = true) by (destruct kk; try reflexivity; discriminate K).
  assert (AV : assignable (kind_ty vk) (kind_ty vk) = true) by (destruct vk; try reflexivity; apply msg_refl).
  destruct (un_entry H r n kk (unique n) (kind_ty kk) (kind_ty vk) "mapkey" (or_intror K) GK (or_introl (conj eq_refl eq_refl))) as [wk BK].
  destruct (un_entry H r n vk (unique n) (kind_ty kk) (kind_ty vk) "mapvalue" (or_introl N) V (or_intror (conj eq_refl eq_refl))) as [wv BV].
  pose proof (same_kind kk) as SK. pose proof (same_kind vk) as SV.
  assert (GM : ugives sc pools m (GE H r (kind_ty kk) (kind_ty vk)) (XMap n kk vk) (YMap (kind_ty kk) (kind_ty vk)) = true).
  { unfold ugives. cbn [uty_of]. rewrite EV, CK. cbn. rewrite SK. exact SV. }
  assert (GM' : forall G, ugives sc pools m G (XMap n kk vk) (YMap (kind_ty kk) (kind_ty vk)) = true) by (intros; exact GM).
  assert (RK : forall G : ctx, ureads G (XMap n kk vk) = []) by reflexivity.
  clear GM. 
  unfold GE in BK, BV. remember (kind_ty kk) as tk eqn:Ek. remember (kind_ty vk) as tv eqn:Ev. clear Ek Ev.
  assert (BW : exists w, ublk sc dp wrap declared pools m (meth_unmarshal unsafe) true
    (("mapvalue", tv) :: ("mapkey", tk) :: ("postIndex", YInt) :: ("msglen", YInt) :: GU H r)
    (ublock
          ([UDef "entryPreIndex" iNdEx; UVar "wire" GoUnmarshal.YU64; u_varint (LVar "wire") GoUnmarshal.YU64;
            UDef "fieldNum" (XConv (YOf n KInt32) (XShr (XVar "wire") (num 3)))]
           ++ [UIf (XEq (XVar "fieldNum") (num 1)) (ublock (u_mapField dp unsafe n "mapkey" kk (unique n)))
                (UIf (XEq (XVar "fieldNum") (num 2)) (ublock (u_mapField dp unsafe n "mapvalue" vk (unique n)))
                  (ublock (USet (LVar "iNdEx") (XVar "entryPreIndex") :: u_skip (Some "postIndex")
                           ++ [UAdd "iNdEx" (XVar "skippy")])))])) = Some w).
  { unfold GU in *; destruct H as [h|]; cbn [app] in *; lazy beta iota zeta delta [u_skip bad_length]; cbn [app].
    all: remember (u_mapField dp unsafe n "mapkey" kk (unique n)) as bk eqn:Ebk; remember (u_mapField dp unsafe n "mapvalue" vk (unique n)) as bv eqn:Ebv; clear Ebk Ebv.
    all: eapply close_blk; [reflexivity|do 4 (eapply uk_cons; [uk|]); eapply uk_cons;
         [eapply uk_if; [ubool|eassumption|eapply uk_blk; [reflexivity|eapply uk_if; [ubool|eassumption|uk]|apply close_none]]|eapply uk_nil]|].
    all: intros i I; cbn in I; rewrite !in_app_iff, filter_In, !in_app_iff; cbn.
    all: destruct I as [<-|[<-|[<-|[]]]]; cbn; tauto. }
  destruct BW as [w BW]. clear BK BV.
  destruct H as [h|]; lazy beta iota delta [GU app] in BW;
    lazy beta iota zeta delta [u_field u_map u_len_int u_len_u64 u_check u_skip wrong bad_length f_ty f_num f_slot is_oneof]; cbn [app].
  all: eapply close_field;
    [unfold GU; cbn [app]; do 7 (eapply uk_cons; [uk|]); eapply uk_cons; [eapply uk_if; [ubool|eapply uk_blk; [reflexivity|eapply uk_set; [uleaf|apply GM']|uleaf]|uk]|];
     eapply uk_cons; [eapply uk_ptr; [exact EK|uleaf]|]; eapply uk_cons; [eapply uk_ptr; [exact EV|uleaf]|];
     eapply uk_cons; [eapply uk_while; [ubool|exact BW]|];
     eapply uk_cons; [eapply uk_put; [uleaf|uleaf|uleaf|eassumption|eassumption]|uk]
    |reflexivity|].
  all: intros i I; cbn in I; rewrite !in_app_iff; cbn.
  all: destruct I as [<-|[<-|[<-|[<-|[]]]]]; cbn; tauto.
Qed.
End Unmarshal.
