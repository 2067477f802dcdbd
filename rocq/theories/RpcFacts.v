(** Lemmas for C66. *)
From Coq Require Import ZArith List Bool String Lia.
From Verif Require Import Base Schema Value Marshal Unmarshal Pool Generator GoSyntax GoRpc GenRpc RpcNet.
From Verif Require Import RecordSpec WireSpec Typing MsgSpec DecodeSpec ContentSpec EqualSpec CloneSpec Equal TargetFacts PoolSpec RunRel RunFacts UmFacts PoolFacts PoolRun PoolTotal PropsUnmarshal PropsRoundTrip PropsEqual PropsPool PropsGen RoundTripTop.
Import ListNotations.
Open Scope string_scope.
Open Scope Z_scope.
Open Scope list_scope.

Lemma str_eqb_true a b : Generator.str_eqb a b = true <-> a = b.
Proof. unfold Generator.str_eqb. destruct (list_eq_dec Z.eq_dec a b); split; congruence. Qed.

(** * Finding the handler *)
Lemma serve_full s path g : serve s path = Some g -> exists me, last_slash (tl path) [] None = Some (sv_full s, me).
Proof.
  unfold serve. intros H. destruct path as [|c p]; [discriminate H|]. cbn [tl]. destruct (negb (c =? 47)); [discriminate H|].
  destruct (last_slash p [] None) as [[sv me]|]; [|discriminate H]. destruct (Generator.str_eqb sv (sv_full s)) eqn:X; [|discriminate H].
  apply str_eqb_true in X. subst. eauto.
Qed.
Lemma serve_sname s k m : NoDup (map me_name (sv_methods s)) -> NoDup (map me_goname (sv_methods s)) -> (forall m, In m (sv_methods s) -> ~ In 47 (me_name m)) ->
  nth_error (sv_methods s) k = Some m -> serve s (sname s m) = Some (me_goname m).
Proof.
  intros A B C H. destruct (C51_stubs s k m A B C H) as (c & Hc & Hs & _). unfold client_call in Hc. rewrite H in Hc.
  destruct (nth_error (client_indices (sv_methods s) 0 0) k); [|discriminate].
  destruct (negb (me_server m) && negb (me_client m)); [inversion Hc; subst; exact Hs|].
  destruct (nth_error (Streams s) n); [|discriminate]. inversion Hc; subst. exact Hs.
Qed.
Lemma sname_slash s m : ~ In 47 (me_name m) -> last_slash (tl (sname s m)) [] None = Some (sv_full s, me_name m).
Proof.
  intros H. unfold sname. cbn [app tl]. change (sv_full s ++ 47 :: me_name m) with (sv_full s ++ [47] ++ me_name m).
  now rewrite last_slash_app.
Qed.
Lemma find_goname l m : NoDup (map (fun m => me_goname (rpc m)) l) -> In m l -> find (fun m' => Generator.str_eqb (me_goname (rpc m')) (me_goname (rpc m))) l = Some m.
Proof.
  induction l as [|a l IH]; [easy|]. cbn [map find]. intros N H. inversion N as [|? ? N1 N2]; subst.
  destruct (Generator.str_eqb (me_goname (rpc a)) (me_goname (rpc m))) eqn:X.
  - apply str_eqb_true in X. destruct H as [->|H]; [reflexivity|]. exfalso. apply N1. rewrite X. now apply (in_map (fun m => me_goname (rpc m))).
  - destruct H as [->|H]; [|now apply IH]. assert (Generator.str_eqb (me_goname (rpc m)) (me_goname (rpc m)) = true) by now apply str_eqb_true. congruence.
Qed.

(** Distinct full names of the services, distinct names of the methods of a service, and no slash
    in method names (protobuf identifiers have none). *)
Definition well_named (svcs : list rservice) : Prop :=
  NoDup (map rs_full svcs) /\ NoDup (map rs_go svcs) /\
  forall s, In s svcs -> NoDup (map (fun m => me_name (rpc m)) (rs_methods s)) /\ NoDup (map (fun m => me_goname (rpc m)) (rs_methods s)) /\
    forall m, In m (rs_methods s) -> ~ In 47 (me_name (rpc m)).

Lemma find_rpc_ok svcs s m : NoDup (map rs_full svcs) ->
  (forall s, In s svcs -> NoDup (map (fun m => me_name (rpc m)) (rs_methods s)) /\ NoDup (map (fun m => me_goname (rpc m)) (rs_methods s)) /\
    forall m, In m (rs_methods s) -> ~ In 47 (me_name (rpc m))) ->
  In s svcs -> In m (rs_methods s) -> find_rpc svcs (sname (bare s) (rpc m)) = Some (s, m).
Proof.
  intros N A Hs Hm. destruct (A s Hs) as (N1 & N2 & N3).
  assert (serve (bare s) (sname (bare s) (rpc m)) = Some (me_goname (rpc m))) as SV.
  { destruct (In_nth_error _ _ (in_map rpc _ _ Hm)) as [k Hk]. apply (serve_sname (bare s) k); auto; cbn [bare sv_methods]; rewrite ?map_map; auto.
    intros m' H'. apply in_map_iff in H'. destruct H' as (x & <- & Hx). auto. }
  clear A. induction svcs as [|s' l IH]; [easy|]. cbn [find_rpc]. cbn [map] in N. inversion N as [|? ? M1 M2]; subst.
  destruct Hs as [->|Hs].
  - rewrite SV. now rewrite find_goname.
  - destruct (serve (bare s') (sname (bare s) (rpc m))) as [g|] eqn:X; [|now apply IH].
    exfalso. destruct (serve_full _ _ _ X) as [me Y]. rewrite sname_slash in Y by now apply N3. injection Y as Y _. cbn [bare sv_full] in Y.
    apply M1. rewrite <- Y. now apply in_map.
Qed.
Lemma streams_of_ok svcs s : NoDup (map rs_go svcs) -> In s svcs -> streams_of svcs (rs_go s) = Streams (bare s).
Proof.
  intros N H. unfold streams_of. enough (find (fun s0 => Generator.str_eqb (rs_go s0) (rs_go s)) svcs = Some s) as -> by reflexivity.
  induction svcs as [|a l IH]; [easy|]. cbn [map find] in *. inversion N as [|? ? N1 N2]; subst.
  destruct (Generator.str_eqb (rs_go a) (rs_go s)) eqn:X.
  - apply str_eqb_true in X. destruct H as [->|H]; [reflexivity|]. exfalso. apply N1. rewrite X. now apply in_map.
  - destruct H as [->|H]; [|now apply IH]. assert (Generator.str_eqb (rs_go s) (rs_go s) = true) by now apply str_eqb_true. congruence.
Qed.

(** * Messages *)
(** A message the round trip is proved for (C18). *)
Definition sendable (sc : schema) (m : nat) (v : val) : Prop :=
  md_foreign (md_of sc m) = false /\ wt_msg sc m v /\ nan_free sc m v /\ decodable sc (fun m x y => up_eq (sc_up sc) m x y = true) m v /\
  exists bs, MarshalVT sc false m v = Ok (Some bs) /\ small bs.
(** [v'] has, bit for bit, the content of a message that is EqualVT to [v]. *)
Definition arrives (sc : schema) (m : nat) (v v' : val) : Prop :=
  exists v0, (forall o, EqualVT sc o m v v0 = true) /\ same_content sc m v' v0.

Section Facts.
Variable sc : schema.
Hypothesis W0 : wf_schema sc = true.
Hypothesis UE : up_enc_ok sc.
Hypothesis UD : up_dec_ok sc.
Hypothesis UQ : up_eq_ok sc.
Hypothesis UX : up_compact sc.
Hypothesis UC : up_clone_ok sc.
Hypothesis PL : pools_local sc.
Hypothesis NO : no_optional_bytes sc.
Variables W E : Type.
Variable al : W -> nat -> W * val.
Variable nested : W -> list Z -> nat -> val.
Hypothesis A1 : forall w m, md_pool (md_of sc m) = true -> exists s, reachable sc s /\ drawn sc (in_pool s) m (snd (al w m)).
Hypothesis A2 : forall w m, md_pool (md_of sc m) = false -> snd (al w m) = new_msg (md_of sc m).
Hypothesis A3 : forall w, exists s, reachable sc s /\ forall path m, md_pool (md_of sc m) = true -> drawn sc (in_pool s) m (nested w path m).
Variable of_err : err -> E.
Variable crashed : E.

Lemma decode_new w w0 m data : md_foreign (md_of sc m) = false -> bytes_ok data = true -> small data ->
  same_outcome (same_content sc m) (UnmarshalVT_pool sc (nested w) m data (snd (al w0 m))) (UnmarshalVT sc m data (new_msg (md_of sc m))).
Proof.
  intros F B S. destruct (A3 w) as (s & R & D). destruct (reachable_ok sc W0 UD UX UC PL s R) as [G _].
  apply same_from_rs; auto.
  - intros. eapply alloc_rs; eauto.
  - destruct (md_pool (md_of sc m)) eqn:P.
    + destruct (A1 w0 m P) as (s' & R' & D'). destruct (reachable_ok sc W0 UD UX UC PL s' R') as [G' _]. apply rs_msg; auto. eapply drawn_rm; eauto.
    + rewrite A2 by exact P. now apply new_rs.
  - now apply target_new.
  - intros; apply rs_content; auto.
Qed.
Lemma sent_arrives m v : sendable sc m v -> exists b, encode sc E of_err crashed (Helped m v) = inr b /\
  forall w w0, exists v', decode sc W E nested of_err crashed w b (m, snd (al w0 m)) = (None, v') /\ arrives sc m v v'.
Proof.
  intros (F & T & N & D & bs & M & S). exists bs. split; [unfold encode; cbn [grpc_Marshal]; now rewrite M|]. intros w w0.
  destruct (C18_equal sc (fun _ => false) false m v bs W0 UE UD UQ F T N D M S) as (v0 & A & Q).
  destruct (marshal_decodes sc _ W0 UE UD false m v bs F T D M S) as [Bb _].
  pose proof (decode_new w w0 m bs F Bb S) as X. unfold accepts in A. rewrite A in X. inversion X as [x y C EX EY|]; subst.
  exists x. split; [unfold decode; cbn [fst snd]; now rewrite <- EX|]. exists v0. split; [|exact C]. intros o.
  destruct (C18_equal sc o false m v bs W0 UE UD UQ F T N D M S) as (v1 & A' & Q'). unfold accepts in A'. rewrite A in A'. now inversion A'; subst.
Qed.
End Facts.
