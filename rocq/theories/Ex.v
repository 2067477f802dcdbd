(** A checker for [wt_msg] and an example schema; used only to show that the
    hypotheses of the theorems are met by concrete messages. *)
From Coq Require Import ZArith List Bool Lia.
From Verif Require Import Base Schema Value Helpers Size Marshal Unmarshal Equal Clone WireSpec Typing MsgSpec.
Import ListNotations.
Open Scope Z_scope.

Section Check.
Variable sc : schema.
Variable rec : nat -> val -> bool.
Definition elem_b (k : kind) (v : val) : bool :=
  match sub_of k with
  | Some m => is_nil v || rec m v
  | None =>
      match v with
      | VInt z => in_range k z
      | VStr s => match k with KString => bytes_ok s | _ => false end
      | VBytes s => match k with KBytes => bytes_ok s | _ => false end
      | VNil => match k with KBytes => true | _ => false end
      | _ => false
      end
  end.
Fixpoint nodup_b (l : list val) : bool :=
  match l with
  | [] => true
  | k :: l' => negb (existsb (key_eqb k) l') && nodup_b l'
  end.
Definition field_b (md : mdesc) (f : fdesc) (v : val) : bool :=
  match f_ty f with
  | TField LImplicit k => elem_b k v
  | TField (LOptional | LRequired) k =>
      is_nil v ||
      (if is_num k || match k with KString => true | _ => false end
       then match v with VPtr x => elem_b k x | _ => false end else elem_b k v)
  | TField (LRepeated _) k =>
      is_nil v || match v with VList l => forallb (elem_b k) l | _ => false end
  | TMap kk vk =>
      is_nil v ||
      match v with
      | VMap l => (is_num kk || match kk with KString => true | _ => false end)
                  && forallb (fun e => elem_b kk (fst e)) l && forallb (fun e => elem_b vk (snd e)) l
                  && nodup_b (map fst l)
      | _ => false
      end
  | TField LOneof _ =>
      is_nil v ||
      match v with
      | VOneof n x =>
          existsb (fun g => (f_num g =? n) && Nat.eqb (f_slot g) (f_slot f) &&
                            match f_ty g with TField LOneof k' => elem_b k' x | _ => false end)
                  (md_fields md)
      | _ => false
      end
  end.
Definition msg_b (m : nat) (v : val) : bool :=
  match v with
  | VMsg s u _ =>
      Nat.eqb (length s) (md_nslots (md_of sc m))
      && forallb (fun f => field_b (md_of sc m) f (slot s (f_slot f))) (md_fields (md_of sc m))
      && bytes_ok u
  | _ => false
  end.

Hypothesis rec_ok : forall m v, rec m v = true -> wt_msg sc m v.
Lemma elem_b_ok k v : elem_b k v = true -> wt_elem sc k v.
Proof.
  unfold elem_b. destruct (sub_of k) as [m|] eqn:S.
  - intros H. apply orb_true_iff in H as [H|H].
    + destruct v; try discriminate. econstructor; eauto.
    + eapply wt_sub; eauto.
  - intros H. destruct v; try discriminate; destruct k; try discriminate; now constructor.
Qed.
Lemma elem_key_refl k v : is_num k = true \/ k = KString -> elem_b k v = true -> key_eqb v v = true.
Proof.
  unfold elem_b. intros K. replace (sub_of k) with (@None nat) by (destruct K as [K| ->]; [destruct k; discriminate || reflexivity|reflexivity]).
  destruct v; try discriminate; intros H; cbn; try apply Z.eqb_refl;
    try (destruct (list_eq_dec Z.eq_dec s s); congruence);
    (destruct K as [K| ->]; [destruct k|]; discriminate).
Qed.
Lemma nodup_b_ok kk l : is_num kk = true \/ kk = KString -> forallb (elem_b kk) l = true ->
  nodup_b l = true -> NoDup l.
Proof.
  intros K. induction l as [|k l IH]; cbn; intros T H; [constructor|].
  apply andb_true_iff in T as [T1 T2]. apply andb_true_iff in H as [H1 H2].
  constructor; [|auto]. intros Hi. apply negb_true_iff in H1.
  assert (existsb (key_eqb k) l = true) as C; [|congruence].
  apply existsb_exists. exists k. split; [assumption|]. now apply (elem_key_refl kk).
Qed.
Lemma field_b_ok md f v : field_b md f v = true -> wt_field sc md f v.
Proof.
  unfold field_b. destruct (f_ty f) as [[| | |p|] k|kk vk] eqn:T.
  - intros H. eapply wt_implicit; eauto using elem_b_ok.
  - destruct v as [| | | | | | | | | |]; cbn [is_nil orb]; intros H;
      try (apply wt_unset; now rewrite T).
    all: destruct (is_num k || _) eqn:K; try discriminate.
    all: try (eapply wt_ptr; eauto using elem_b_ok; destruct k; (now left) || (now right) || discriminate).
    all: eapply wt_direct; eauto using elem_b_ok; destruct k; discriminate || reflexivity.
  - destruct v as [| | | | | | | | | |]; cbn [is_nil orb]; intros H;
      try (apply wt_unset; now rewrite T).
    all: destruct (is_num k || _) eqn:K; try discriminate.
    all: try (eapply wt_ptr; eauto using elem_b_ok; destruct k; (now left) || (now right) || discriminate).
    all: eapply wt_direct; eauto using elem_b_ok; destruct k; discriminate || reflexivity.
  - destruct v; cbn [is_nil orb]; intros H; try discriminate; [apply wt_unset; now rewrite T|].
    eapply wt_list; eauto. rewrite forallb_forall in H. eauto using elem_b_ok.
  - destruct v; cbn [is_nil orb]; intros H; try discriminate; [apply wt_unset; now rewrite T|].
    apply existsb_exists in H as (g & Hg & H). apply andb_true_iff in H as [H E].
    apply andb_true_iff in H as [H1 H2]. apply Z.eqb_eq in H1 as <-. apply Nat.eqb_eq in H2.
    destruct (f_ty g) as [[] k'|] eqn:Tg; try discriminate. eapply wt_oneof; eauto using elem_b_ok.
  - destruct v; cbn [is_nil orb]; intros H; try discriminate; [apply wt_unset; now rewrite T|].
    rewrite !andb_true_iff in H. destruct H as [[[H1 H2] H3] H4].
    assert (is_num kk = true \/ kk = KString) as K
      by (apply orb_true_iff in H1 as [|]; [now left|right; destruct kk; discriminate || reflexivity]).
    eapply wt_map; eauto.
    + rewrite forallb_forall in H2. eauto using elem_b_ok.
    + rewrite forallb_forall in H3. eauto using elem_b_ok.
    + eapply nodup_b_ok; eauto. rewrite forallb_forall in *. intros k Hk.
      apply in_map_iff in Hk as (e & <- & He). auto.
Qed.
Lemma msg_b_ok m v : msg_b m v = true -> wt_msg sc m v.
Proof.
  destruct v; try discriminate. cbn. rewrite !andb_true_iff. intros [[H1 H2] H3].
  apply Nat.eqb_eq in H1. constructor; auto. rewrite forallb_forall in H2. auto using field_b_ok.
Qed.
End Check.

Fixpoint check (sc : schema) (n : nat) (m : nat) (v : val) : bool :=
  match n with O => false | S n' => msg_b sc (check sc n') m v end.
Lemma check_ok sc n m v : check sc n m v = true -> wt_msg sc m v.
Proof. revert m v. induction n as [|n IH]; [discriminate|]. intros m v. now apply msg_b_ok. Qed.

(** Message 0: all cardinalities; message 1: a required field; message 2: a type
    without vtproto helpers. *)
Definition ex_m0 : mdesc := mkM
  [ mkF 1 0 (TField LImplicit KInt32); mkF 2 1 (TField LOptional KString);
    mkF 3 2 (TField (LRepeated true) KSint64); mkF 4 3 (TField (LRepeated false) (KMessage 0));
    mkF 5 4 (TMap KString (KMessage 1)); mkF 6 5 (TField LOneof KString);
    mkF 7 5 (TField LOneof (KMessage 1)); mkF 8 6 (TField LImplicit KDouble);
    mkF 9 7 (TField LImplicit KBytes); mkF 20 8 (TField LOptional (KMessage 2));
    mkF 16 9 (TField (LRepeated false) KString) ] 10 true [] false false.
Definition ex_m1 : mdesc := mkM
  [ mkF 1 0 (TField LRequired KInt32); mkF 2 1 (TField LOptional KBytes) ] 2 true [] false false.
Definition ex_m2 (foreign : bool) : mdesc := mkM
  [ mkF 1 0 (TField LImplicit KInt64) ] 1 true [] false foreign.

Definition no_up : upstream :=
  mkUp (fun _ _ => []) (fun _ _ => true) (fun _ _ => 0) (fun _ _ => None) (fun _ _ _ => false)
       (fun _ v => v) (fun _ _ => None).
(** All messages local; also what the upstream functions of [ex_sc] compute. *)
Definition base_sc : schema := mkS [ex_m0; ex_m1; ex_m2 false] no_up.
Definition base_ord (m : nat) : list fdesc := sort_fields (md_fields (md_of base_sc m)).
Definition ex_up : upstream := mkUp
  (fun m v => Encoding base_sc base_ord m v)
  (fun m v => Initialized base_sc m v)
  (fun m v => zlen (Encoding base_sc base_ord m v))
  (fun m bs => if bytes_ok bs && (zlen bs <? 9223372036854775800) then
       match UnmarshalVT base_sc m bs (new_msg (md_of base_sc m)) with Ok v => Some v | _ => None end else None)
  (fun m a b => val_eqb a b)
  (fun m v => v)
  (fun m bs => None).
Definition ex_sc : schema := mkS [ex_m0; ex_m1; ex_m2 true] ex_up.

Lemma ex_wf : wf_schema ex_sc = true. Proof. reflexivity. Qed.
Lemma ex_up_ok : up_enc_ok ex_sc.
Proof. split; intros; reflexivity. Qed.

Definition ex_req (z : Z) : val := VMsg [VPtr (VInt z); VNil] [] [].
Definition ex_inner : val := VMsg
  [VInt (-5); VNil; VNil; VNil; VNil; VNil; VInt 0; VNil; VNil; VNil] [] [].
(** int32 -1, string "hi", packed [-1; 300], two nested messages (one nil), a map
    with two keys, the oneof holding a message, 1.0, bytes, a message without
    helpers, two strings, and an unknown field 100. *)
Definition ex_v : val := VMsg
  [ VInt (-1); VPtr (VStr [104; 105]); VList [VInt (-1); VInt 300];
    VList [ex_inner; VNil]; VMap [(VStr [97], ex_req 1); (VStr [98; 99], ex_req (-7))];
    VOneof 7 (ex_req 150); VInt 4607182418800017408; VBytes [0; 255];
    VMsg [VInt 77] [] []; VList [VStr []; VStr [120]] ] [160; 6; 1] [].
(** The same with a required field of a map value unset. *)
Definition ex_bad : val := VMsg
  [ VInt 0; VNil; VNil; VNil; VMap [(VStr [97], VMsg [VNil; VBytes []] [] [])];
    VNil; VInt 0; VNil; VNil; VNil ] [] [].

Lemma ex_wt : wt_msg ex_sc 0 ex_v. Proof. now apply (check_ok ex_sc 5). Qed.
Lemma ex_bad_wt : wt_msg ex_sc 0 ex_bad. Proof. now apply (check_ok ex_sc 5). Qed.
