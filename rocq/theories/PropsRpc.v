(** C66: the printed gRPC stubs carry calls and messages. *)
From Coq Require Import ZArith List Bool String Lia.
From Verif Require Import Base Schema Value Size Marshal Unmarshal Pool Generator GoSyntax GoRpc GenRpc RpcNet.
From Verif Require Import RecordSpec WireSpec Typing MsgSpec DecodeSpec ContentSpec EqualSpec CloneSpec Equal TargetFacts PoolSpec
  WithinFacts PropsEqual PropsPool PropsGen GoTextRpc Ex GoRpc GenRpc RpcNet RpcFacts.
Import ListNotations.
Open Scope string_scope.
Open Scope Z_scope.
Open Scope list_scope.

(** * The stubs, whatever they are connected to *)
(** The client's method for a unary call: one message is made, the path is invoked once with the
    caller's request, and the caller gets the message Invoke filled, or nil and the error. *)
Theorem C66_client : forall W E (x : io W E) streams s m index w req,
  streaming (rpc m) = false ->
  let '(w1, o) := io_alloc W E x w (rm_out m) in
  let '(w2, (e, o')) := io_invoke W E x w1 (sname (bare s) (rpc m)) (rm_in m, req) (rm_out m, o) in
  exists r, exec W E x streams [("in", XM E (rm_in m) req)] w (gen_client s m index) = Some (w2, r) /\
    msg_err E r = Some (match e with None => o' | Some _ => VNil end, e).
Proof.
  intros W E x streams s m index w req S. unfold streaming in S. apply orb_false_iff in S. destruct S as [S1 S2].
  unfold gen_client. rewrite S1, S2. cbn [negb andb]. cbn [exec step].
  destruct (io_alloc W E x w (rm_out m)) as [w1 o]. cbn [look String.eqb Ascii.eqb Bool.eqb].
  destruct (io_invoke W E x w1 _ _ _) as [w2 [e o']]. cbn. destruct e; cbn; eauto.
Qed.
Print Assumptions C66_client.

(** The handler of a unary method: the request is decoded into one message made for it; without
    interceptor the server's own method is called once, with it; with an interceptor that is
    called, with the method's full name and a function that calls the server's method. *)
Theorem C66_handler : forall W E (x : io W E) streams s m w,
  streaming (rpc m) = false ->
  let '(w1, o) := io_alloc W E x w (rm_in m) in
  let '(w2, (e, v)) := io_dec W E x w1 (rm_in m, o) in
  match e, io_icpt W E x with
  | Some e, _ => exec W E x streams [] w (gen_handler s m) = Some (w2, [XNil E; XE E (Some e)])
  | None, None => exec W E x streams [] w (gen_handler s m) = Some (io_srv W E x w2 (rs_go s) (me_goname (rpc m)) [(rm_in m, v)] false)
  | None, Some f => exists h, exec W E x streams [] w (gen_handler s m) = f w2 (sname (bare s) (rpc m)) (rm_in m, v) h /\
      forall w' r, h w' r = if Nat.eqb (fst r) (rm_in m) then Some (io_srv W E x w' (rs_go s) (me_goname (rpc m)) [r] false) else None
  end.
Proof.
  intros W E x streams s m w S. unfold streaming in S. apply orb_false_iff in S. destruct S as [S1 S2].
  unfold gen_handler. rewrite S1, S2. cbn [negb andb]. cbn [exec step].
  destruct (io_alloc W E x w (rm_in m)) as [w1 o]. cbn [eval look String.eqb Ascii.eqb Bool.eqb].
  destruct (io_dec W E x w1 _) as [w2 [e v]]. destruct e as [e|]; [reflexivity|].
  destruct (io_icpt W E x) as [f|] eqn:I.
  - exists (fun w' r => call_srv W E x [("req", XM E (fst r) (snd r))] w' (rs_go s) (me_goname (rpc m)) [AVar "ctx"; AAssert "req" (rm_in m)]). split.
    + cbn [exec step evals eval look String.eqb Ascii.eqb Bool.eqb]. rewrite I.
      cbn [exec step evals eval look String.eqb Ascii.eqb Bool.eqb].
      match goal with |- _ = ?d => destruct d as [[w3 r]|] end; [|reflexivity]. now rewrite app_nil_r.
    + intros w' [m' v']. unfold call_srv. cbn. destruct (Nat.eqb m' (rm_in m)); reflexivity.
  - cbn [exec step]. rewrite ?I. cbn.
    now destruct (io_srv W E x w2 (rs_go s) (me_goname (rpc m)) [(rm_in m, v)] false) as [w3 r].
Qed.
Print Assumptions C66_handler.

(** The servers for methods that are not implemented. *)
Theorem C66_unimplemented : forall W E (x : io W E) streams m w e,
  exists r, exec W E x streams e w (gen_unimplemented m) = Some (w, r) /\
    if streaming (rpc m) then only_err E r = Some (Some (io_status W E x (me_goname (rpc m))))
    else msg_err E r = Some (VNil, Some (io_status W E x (me_goname (rpc m)))).
Proof.
  intros W E x streams m w e. unfold gen_unimplemented, streaming. destruct (me_client (rpc m)), (me_server (rpc m)); cbn; eauto.
Qed.
Print Assumptions C66_unimplemented.

(** * End to end *)
(** The schema and upstream, as for the round trip (C18, C37). *)
Definition schema_ok (sc : schema) : Prop :=
  wf_schema sc = true /\ up_enc_ok sc /\ up_dec_ok sc /\ up_eq_ok sc /\ up_compact sc /\ up_clone_ok sc /\ pools_local sc /\ no_optional_bytes sc.
(** Messages with a pool come from a pool (in any state a history of pool operations leads to, or
    new); the others are new. *)
Definition alloc_ok (sc : schema) {W} (al : W -> nat -> W * val) (nested : W -> list Z -> nat -> val) : Prop :=
  (forall w m, md_pool (md_of sc m) = true -> exists s, reachable sc s /\ drawn sc (in_pool s) m (snd (al w m))) /\
  (forall w m, md_pool (md_of sc m) = false -> snd (al w m) = new_msg (md_of sc m)) /\
  (forall w, exists s, reachable sc s /\ forall path m, md_pool (md_of sc m) = true -> drawn sc (in_pool s) m (nested w path m)).

(** A call of the client's method leads to one call of the server's own method, with a request that
    has arrived; if that returns an error the caller gets nil and the error, if it returns a message
    the caller gets a message that has arrived. *)
Theorem C66_unary : forall sc W E al nested impl of_err unknown_path crashed status svcs s m index (w : W) req,
  schema_ok sc -> alloc_ok sc al nested -> well_named svcs ->
  In s svcs -> In m (rs_methods s) -> streaming (rpc m) = false -> sendable sc (rm_in m) req ->
  let call := call_unary sc W E al nested impl None of_err unknown_path crashed status svcs w s m index req in
  exists req', arrives sc (rm_in m) req req' /\
    let w2 := fst (al (fst (al w (rm_out m))) (rm_in m)) in
    let '(w3, r) := impl w2 (rs_go s) (me_goname (rpc m)) [(rm_in m, req')] false in
    (forall v e, r = [v; XE E (Some e)] -> as_msg E v <> None -> call = Some (w3, Some (VNil, Some e))) /\
    (forall resp, r = [XM E (rm_out m) resp; XE E None] -> sendable sc (rm_out m) resp ->
       exists resp', arrives sc (rm_out m) resp resp' /\ call = Some (w3, Some (resp', None))).
Proof.
  intros sc W E al nested impl of_err unknown_path crashed status svcs s m index w req (W0 & UE & UD & UQ & UX & UC & PL & NO) (A1 & A2 & A3) (N1 & N2 & N3) Hs Hm St Sd call.
  pose proof (sent_arrives sc W0 UE UD UQ UX UC PL NO W E al nested A1 A2 A3 of_err crashed) as SA.
  destruct (SA (rm_in m) req Sd) as (b & Eb & Db).
  pose proof (C66_client W E (client_io sc W E al nested impl None of_err unknown_path crashed status svcs) (streams_of svcs) s m index w req St) as C.
  cbn [io_alloc io_invoke client_io] in C.
  destruct (al w (rm_out m)) as [w1 o] eqn:Ao. cbn [fst].
  unfold invoke in C. cbn [fst snd] in C. rewrite Eb in C. unfold serve_unary in C. rewrite find_rpc_ok in C by auto.
  pose proof (C66_handler W E (server_io sc W E al nested impl None of_err crashed status b) (streams_of svcs) s m w1 St) as H.
  cbn [io_alloc io_dec io_icpt io_srv server_io] in H.
  destruct (Db (fst (al w1 (rm_in m))) w1) as (req' & Dq & Aq).
  destruct (al w1 (rm_in m)) as [w2 i] eqn:Ai. cbn [fst snd] in *. rewrite Dq in H. rewrite H in C.
  exists req'. split; [exact Aq|].
  destruct (impl w2 (rs_go s) (me_goname (rpc m)) [(rm_in m, req')] false) as [w3 r] eqn:I. split.
  - intros v e -> Nv. unfold call, call_unary. cbn [msg_err as_err] in C. destruct (as_msg E v) as [v'|] eqn:Mv; [|contradiction].
    destruct C as (r' & -> & ->). reflexivity.
  - intros resp -> Sr. cbn [msg_err as_msg as_err] in C. destruct (SA (rm_out m) resp Sr) as (b' & Eb' & Db'). rewrite Eb' in C.
    destruct (Db' w3 w) as (resp' & Dr & Ar). rewrite Ao in Dr. cbn [snd] in Dr. rewrite Dr in C. destruct C as (r' & X & Y).
    exists resp'. split; [exact Ar|]. unfold call, call_unary. now rewrite X, Y.
Qed.
Print Assumptions C66_unary.

(** A request that cannot be marshalled reaches no server. *)
Theorem C66_not_sent : forall sc W E al nested impl icpt of_err unknown_path crashed status svcs s m index (w : W) req e x,
  streaming (rpc m) = false -> MarshalVT sc false (rm_in m) req = Err e x ->
  call_unary sc W E al nested impl icpt of_err unknown_path crashed status svcs w s m index req = Some (fst (al w (rm_out m)), Some (VNil, Some (of_err e))).
Proof.
  intros sc W E al nested impl icpt of_err unknown_path crashed status svcs s m index w req e x St M.
  pose proof (C66_client W E (client_io sc W E al nested impl icpt of_err unknown_path crashed status svcs) (streams_of svcs) s m index w req St) as C.
  cbn [io_alloc io_invoke client_io] in C. destruct (al w (rm_out m)) as [w1 o]. unfold invoke, encode in C. cbn [fst snd grpc_Marshal] in C. rewrite M in C.
  destruct C as (r & X & Y). unfold call_unary. now rewrite X, Y.
Qed.
Print Assumptions C66_not_sent.

(** An interceptor that only calls the handler changes nothing. *)
Theorem C66_interceptor : forall sc W E al nested impl f of_err unknown_path crashed status svcs s m index (w : W) req,
  well_named svcs -> In s svcs -> In m (rs_methods s) -> streaming (rpc m) = false ->
  (forall w path r h, f w path r h = h w r) ->
  call_unary sc W E al nested impl (Some f) of_err unknown_path crashed status svcs w s m index req =
  call_unary sc W E al nested impl None of_err unknown_path crashed status svcs w s m index req.
Proof.
  intros sc W E al nested impl f of_err unknown_path crashed status svcs s m index w req (N1 & N2 & N3) Hs Hm St T.
  pose proof (C66_client W E (client_io sc W E al nested impl (Some f) of_err unknown_path crashed status svcs) (streams_of svcs) s m index w req St) as C1.
  pose proof (C66_client W E (client_io sc W E al nested impl None of_err unknown_path crashed status svcs) (streams_of svcs) s m index w req St) as C2.
  cbn [io_alloc io_invoke client_io] in C1, C2. destruct (al w (rm_out m)) as [w1 o].
  assert (forall b, serve_unary sc W E al nested impl (Some f) of_err unknown_path crashed status svcs w1 (sname (bare s) (rpc m)) b =
                    serve_unary sc W E al nested impl None of_err unknown_path crashed status svcs w1 (sname (bare s) (rpc m)) b) as Q.
  { intros b. unfold serve_unary. rewrite find_rpc_ok by auto.
    pose proof (C66_handler W E (server_io sc W E al nested impl (Some f) of_err crashed status b) (streams_of svcs) s m w1 St) as H1.
    pose proof (C66_handler W E (server_io sc W E al nested impl None of_err crashed status b) (streams_of svcs) s m w1 St) as H2.
    cbn [io_alloc io_dec io_icpt io_srv server_io] in H1, H2. destruct (al w1 (rm_in m)) as [w2 i]. destruct (decode _ _ _ _ _ _ _ _ _) as [[e|] v]; [now rewrite H1, H2|].
    destruct H1 as (h & H1 & Hh). rewrite H1, H2, T, Hh. cbn [fst]. now rewrite Nat.eqb_refl. }
  unfold invoke in C1, C2. destruct (encode sc E of_err crashed (Helped (fst (rm_in m, req)) (snd (rm_in m, req)))) as [e|b].
  - destruct C1 as (r1 & X1 & Y1), C2 as (r2 & X2 & Y2). unfold call_unary. now rewrite X1, X2, Y1, Y2.
  - rewrite Q in C1. destruct (serve_unary _ _ _ _ _ _ None _ _ _ _ _ _ _ _) as [w' [e|b']].
    + destruct C1 as (r1 & X1 & Y1), C2 as (r2 & X2 & Y2). unfold call_unary. now rewrite X1, X2, Y1, Y2.
    + destruct (decode _ _ _ _ _ _ _ _ _) as [e v]. destruct C1 as (r1 & X1 & Y1), C2 as (r2 & X2 & Y2). unfold call_unary. now rewrite X1, X2, Y1, Y2.
Qed.
Print Assumptions C66_interceptor.

(** * Streams *)
(** The client's method for a streaming call opens a stream with the path and the kind of the
    method; if the method takes one request, the request is sent and the client's side closed. *)
Theorem C66_stream_open : forall sc W E al nested of_err ended crashed status svcs s k m (w : W) p v,
  well_named svcs -> In s svcs -> nth_error (rs_methods s) k = Some m -> streaming (rpc m) = true ->
  (me_client (rpc m) = false -> exists b, encode sc E of_err crashed (Helped (rm_in m) v) = inr b) ->
  exists index d r p',
    nth_error (client_indices (map rpc (rs_methods s)) 0 0) k = Some index /\
    exec _ E (client_stream_io sc W E al nested of_err ended crashed status) (streams_of svcs) [("in", XM E (rm_in m) v)] (w, p) (gen_client s m index) = Some ((w, p'), r) /\
    stream_err E r = Some None /\ find_rpc svcs (sname (bare s) (rpc m)) = Some (s, m) /\
    opened p' = Some (d, sname (bare s) (rpc m)) /\
    sd_name d = me_name (rpc m) /\ sd_client d = me_client (rpc m) /\ sd_server d = me_server (rpc m) /\ down p' = [] /\
    if me_client (rpc m) then up p' = [] /\ closed p' = false
    else closed p' = true /\ exists b, encode sc E of_err crashed (Helped (rm_in m) v) = inr b /\ up p' = [b].
Proof.
  intros sc W E al nested of_err ended crashed status svcs s k m w p v (N1 & N2 & N3) Hs Hk St Enc.
  pose proof (nth_error_In _ _ Hk) as Hm. destruct (N3 s Hs) as (M1 & M2 & M3).
  assert (nth_error (sv_methods (bare s)) k = Some (rpc m)) as Hk' by (cbn [bare sv_methods]; now apply map_nth_error).
  destruct (C51_stubs (bare s) k (rpc m)) as (c & Hc & _ & K); try (cbn [bare sv_methods]; rewrite ?map_map; auto; fail); auto.
  { cbn [bare sv_methods]. intros m' H'. apply in_map_iff in H'. destruct H' as (x & <- & Hx). auto. }
  unfold streaming in St. rewrite St in K. destruct K as (d & Ec & _ & D1 & D2 & D3).
  unfold client_call in Hc. rewrite Hk' in Hc. cbn [bare sv_methods] in Hc. destruct (nth_error (client_indices (map rpc (rs_methods s)) 0 0) k) as [index|] eqn:Ix; [|discriminate Hc].
  destruct (negb (me_server (rpc m)) && negb (me_client (rpc m))) eqn:Nk.
  { destruct (me_server (rpc m)), (me_client (rpc m)); discriminate. }
  change (mkService (rs_full s) (rs_go s) (map rpc (rs_methods s))) with (bare s) in Hc.
  destruct (nth_error (Streams (bare s)) index) as [d'|] eqn:Id; [|discriminate Hc]. injection Hc as Hc. rewrite Ec in Hc. injection Hc as Hd Hp. subst d'.
  exists index, d. unfold gen_client. rewrite Nk. cbn [app exec step]. rewrite streams_of_ok by auto. rewrite Id.
  cbn [io_newstream client_stream_io fst snd]. cbn [exec step look String.eqb Ascii.eqb Bool.eqb].
  destruct (me_client (rpc m)) eqn:Cl; cbn [negb app].
  - cbn. do 2 eexists. split; [reflexivity|]. split; [reflexivity|]. split; [reflexivity|]. split; [now apply find_rpc_ok|]. cbn. auto 9.
  - destruct (Enc eq_refl) as [b Eb]. cbn [exec step eval look String.eqb Ascii.eqb Bool.eqb]. cbn [io_send client_stream_io fst snd closed]. rewrite Eb.
    cbn. do 2 eexists. split; [reflexivity|]. split; [reflexivity|]. split; [reflexivity|]. split; [now apply find_rpc_ok|]. cbn. eauto 12.
Qed.
Print Assumptions C66_stream_open.

(** The handler of a streaming method calls the server's own method once, with the stream; if the
    method takes one request, with the request that has arrived. *)
Theorem C66_stream_handler : forall sc W E al nested impl of_err ended crashed status svcs s m (w : W) p,
  schema_ok sc -> alloc_ok sc al nested -> streaming (rpc m) = true ->
  let run := exec _ E (server_stream_io sc W E al nested impl of_err ended crashed status) (streams_of svcs) [] (w, p) (gen_handler s m) in
  if me_client (rpc m) then
    let '(w', r) := impl w (rs_go s) (me_goname (rpc m)) [] true in run = Some ((w', p), r)
  else
    (up p = [] -> run = Some ((fst (al w (rm_in m)), mkPipe [] (down p) (closed p) (opened p)), [XE E (Some ended)])) /\
    (forall v b, up p = [b] -> sendable sc (rm_in m) v -> encode sc E of_err crashed (Helped (rm_in m) v) = inr b ->
      exists v', arrives sc (rm_in m) v v' /\
      let '(w', r) := impl (fst (al w (rm_in m))) (rs_go s) (me_goname (rpc m)) [(rm_in m, v')] true in
      run = Some ((w', mkPipe [] (down p) (closed p) (opened p)), r)).
Proof.
  intros sc W E al nested impl of_err ended crashed status svcs s m w p (W0 & UE & UD & UQ & UX & UC & PL & NO) (A1 & A2 & A3) St run.
  unfold streaming in St. unfold run, gen_handler. destruct (me_client (rpc m)) eqn:Cl; cbn [negb andb].
  - cbn. destruct (impl w (rs_go s) (me_goname (rpc m)) [] true) as [w' r]. now rewrite app_nil_r.
  - cbn [orb] in St. rewrite St. cbn [negb]. destruct p as [u dn cl op]. cbn [up down closed opened]. split.
    + intros ->. cbn. unfold lift. cbn [fst snd]. destruct (al w (rm_in m)) as [w1 o]. reflexivity.
    + intros v b -> Sd Eb. destruct (sent_arrives sc W0 UE UD UQ UX UC PL NO W E al nested A1 A2 A3 of_err crashed (rm_in m) v Sd) as (b' & Eb' & Db).
      rewrite Eb in Eb'. injection Eb' as <-. destruct (Db (fst (al w (rm_in m))) w) as (v' & D & A). exists v'. split; [exact A|].
      cbn [exec step io_alloc server_stream_io]. unfold lift. cbn [fst snd]. destruct (al w (rm_in m)) as [w1 o]. cbn [fst snd] in *.
      cbn [eval look String.eqb Ascii.eqb Bool.eqb io_recv server_stream_io fst snd up take]. rewrite D. cbn.
      destruct (impl w1 (rs_go s) (me_goname (rpc m)) [(rm_in m, v')] true) as [w' r]. now rewrite app_nil_r.
Qed.
Print Assumptions C66_stream_handler.

(** The messages sent in one direction: those received have arrived, in the order sent; the others
    are under way. *)
Definition delivered (sc : schema) (E : Type) (of_err : err -> E) (crashed : E) (m : nat) (sent got : list val) (queue : list (list Z)) : Prop :=
  exists received pending, sent = received ++ pending /\ Forall2 (arrives sc m) received got /\
    Forall2 (fun v b => encode sc E of_err crashed (Helped m v) = inr b) pending queue.
Definition sends_ok (sc : schema) {W} (m : rmethod) (e : sevent W) : Prop :=
  match e with CSend _ v => sendable sc (rm_in m) v | SSend _ v => sendable sc (rm_out m) v | _ => True end.

Section Streams.
Variable sc : schema.
Variables W E : Type.
Variable al : W -> nat -> W * val.
Variable nested : W -> list Z -> nat -> val.
Variable impl : W -> str -> str -> list (nat * val) -> bool -> W * list (rval E).
Variable of_err : err -> E.
Variables ended crashed : E.
Variable status : str -> E.
Variable svcs : list rservice.
Hypothesis SO : schema_ok sc.
Hypothesis AO : alloc_ok sc al nested.
Variable m : rmethod.
Let dv := delivered sc E of_err crashed.
Let sendables t l := Forall (sendable sc t) l.
Definition inv (st : (W * pipe) * slog) : Prop :=
  let '((w, p), l) := st in
  sendables (rm_in m) (sent_up l) /\ sendables (rm_out m) (sent_down l) /\
  dv (rm_in m) (sent_up l) (got_up l) (up p) /\ dv (rm_out m) (sent_down l) (got_down l) (down p).

Lemma deliver_send t sent got q v b : dv t sent got q -> encode sc E of_err crashed (Helped t v) = inr b -> dv t (sent ++ [v]) got (q ++ [b]).
Proof.
  intros (r & pn & -> & A & B) Eb. exists r, (pn ++ [v]). split; [now rewrite app_assoc|]. split; [exact A|]. apply Forall2_app; auto.
Qed.
Lemma deliver_recv t sent got b q : sendables t sent -> dv t sent got (b :: q) ->
  forall w w0, exists v', decode sc W E nested of_err crashed w b (t, snd (al w0 t)) = (None, v') /\ dv t sent (got ++ [v']) q.
Proof.
  intros S (r & pn & -> & A & B) w w0. inversion B as [|v b' pn' q' Eb B']; subst.
  destruct SO as (W0 & UE & UD & UQ & UX & UC & PL & NO), AO as (A1 & A2 & A3).
  assert (sendable sc t v) as Sv by (unfold sendables in S; rewrite Forall_forall in S; apply S, in_or_app; right; now left).
  destruct (sent_arrives sc W0 UE UD UQ UX UC PL NO W E al nested A1 A2 A3 of_err crashed t v Sv) as (b' & Eb' & Db).
  rewrite Eb in Eb'. injection Eb' as <-. destruct (Db w w0) as (v' & D & Ar). exists v'. split; [exact D|].
  exists (r ++ [v]), pn'. split; [now rewrite <- app_assoc|]. split; [apply Forall2_app; auto|exact B'].
Qed.

Lemma inv_step st ev : inv st -> sends_ok sc m ev -> inv (run_event sc W E al nested impl of_err ended crashed status svcs m st ev).
Proof.
  destruct st as [[w [u dn cl op]] [su gu sd gd]]. intros (S1 & S2 & D1 & D2) Ok. cbn [sent_up got_up sent_down got_down up down] in *.
  destruct ev as [v| | |v| |f]; cbn [sends_ok] in Ok; unfold run_event.
  - pose proof Ok as Ok'. destruct SO as (W0 & UE & UD & UQ & UX & UC & PL & NO), AO as (A1 & A2 & A3).
    destruct (sent_arrives sc W0 UE UD UQ UX UC PL NO W E al nested A1 A2 A3 of_err crashed _ v Ok) as (b & Eb & _).
    cbn [exec gen_client_send step evals eval look String.eqb Ascii.eqb Bool.eqb io_send client_stream_io fst snd closed up down opened]. rewrite Eb.
    destruct cl; cbn; [split; auto|]. split; [apply Forall_app; auto|]. split; [exact S2|]. split; [|exact D2]. now apply deliver_send.
  - cbn [exec gen_client_recv step io_alloc client_stream_io]. unfold lift. cbn [fst snd].
    destruct (al w (rm_out m)) as [w1 o] eqn:Al. cbn [exec step eval look String.eqb Ascii.eqb Bool.eqb io_recv client_stream_io fst snd up down closed opened].
    destruct dn as [|b dn]; cbn [take]; [cbn; auto|].
    destruct (deliver_recv _ _ _ _ _ S2 D2 w1 w) as (v' & Dc & D'). rewrite Al in Dc. cbn [snd] in Dc. rewrite Dc. cbn. auto.
  - cbn [exec gen_close_and_recv step eval io_close client_stream_io fst snd up down closed opened io_alloc]. unfold lift. cbn [fst snd].
    destruct (al w (rm_out m)) as [w1 o] eqn:Al. cbn [exec step eval look String.eqb Ascii.eqb Bool.eqb io_recv client_stream_io fst snd up down closed opened].
    destruct dn as [|b dn]; cbn [take]; [cbn; auto|].
    destruct (deliver_recv _ _ _ _ _ S2 D2 w1 w) as (v' & Dc & D'). rewrite Al in Dc. cbn [snd] in Dc. rewrite Dc. cbn. auto.
  - pose proof Ok as Ok'. destruct SO as (W0 & UE & UD & UQ & UX & UC & PL & NO), AO as (A1 & A2 & A3).
    destruct (sent_arrives sc W0 UE UD UQ UX UC PL NO W E al nested A1 A2 A3 of_err crashed _ v Ok) as (b & Eb & _).
    cbn [exec gen_server_send step evals eval look String.eqb Ascii.eqb Bool.eqb io_send server_stream_io fst snd closed up down opened]. rewrite Eb.
    cbn. split; [exact S1|]. split; [apply Forall_app; auto|]. split; [exact D1|]. now apply deliver_send.
  - cbn [exec gen_server_recv step io_alloc server_stream_io]. unfold lift. cbn [fst snd].
    destruct (al w (rm_in m)) as [w1 o] eqn:Al. cbn [exec step eval look String.eqb Ascii.eqb Bool.eqb io_recv server_stream_io fst snd up down closed opened].
    destruct u as [|b u]; cbn [take]; [cbn; auto|].
    destruct (deliver_recv _ _ _ _ _ S1 D1 w1 w) as (v' & Dc & D'). rewrite Al in Dc. cbn [snd] in Dc. rewrite Dc. cbn. auto.
  - cbn. auto.
Qed.
Lemma inv_run evs : forall st, inv st -> Forall (sends_ok sc m) evs -> inv (fold_left (run_event sc W E al nested impl of_err ended crashed status svcs m) evs st).
Proof.
  induction evs as [|e evs IH]; intros st I F; [exact I|]. inversion F; subst. cbn [fold_left]. apply IH; auto. now apply inv_step.
Qed.
End Streams.

(** However the calls of Send, Recv and CloseAndRecv of both sides are mixed, with anything else
    happening in between: in both directions the messages received are the ones sent, in order. *)
Theorem C66_streams : forall sc W E al nested impl of_err ended crashed status svcs m (w : W) op evs,
  schema_ok sc -> alloc_ok sc al nested -> Forall (sends_ok sc m) evs ->
  let '((_, p), l) := run_stream sc W E al nested impl of_err ended crashed status svcs m (w, mkPipe [] [] false op) evs in
  delivered sc E of_err crashed (rm_in m) (sent_up l) (got_up l) (up p) /\
  delivered sc E of_err crashed (rm_out m) (sent_down l) (got_down l) (down p).
Proof.
  intros sc W E al nested impl of_err ended crashed status svcs m w op evs SO AO F.
  assert (inv sc W E of_err crashed m ((w, mkPipe [] [] false op), mkLog [] [] [] [])) as I0.
  { cbn. split; [constructor|]. split; [constructor|]. split; exists [], []; auto. }
  pose proof (inv_run sc W E al nested impl of_err ended crashed status svcs SO AO m evs _ I0 F) as I. unfold run_stream.
  destruct (fold_left _ evs _) as [[w' p'] l']. now destruct I as (_ & _ & A & B).
Qed.
Print Assumptions C66_streams.

(** No message is lost on the way out: what a side sends is what is under way or received, as long
    as the client sends nothing after CloseAndRecv. *)
Theorem C66_stream_sent : forall sc W E al nested impl of_err ended crashed status svcs m (w : W) op evs,
  schema_ok sc -> alloc_ok sc al nested -> Forall (sends_ok sc m) evs ->
  let l := snd (run_stream sc W E al nested impl of_err ended crashed status svcs m (w, mkPipe [] [] false op) evs) in
  sent_down l = flat_map (fun e => match e with SSend _ v => [v] | _ => [] end) evs /\
  (Forall (fun e => e <> CCloseAndRecv W) evs -> sent_up l = flat_map (fun e => match e with CSend _ v => [v] | _ => [] end) evs).
Proof.
  intros sc W E al nested impl of_err ended crashed status svcs m w op evs SO AO F. cbn zeta. unfold run_stream.
  enough (forall st, let st' := fold_left (run_event sc W E al nested impl of_err ended crashed status svcs m) evs st in
    sent_down (snd st') = sent_down (snd st) ++ flat_map (fun e => match e with SSend _ v => [v] | _ => [] end) evs /\
    (closed (snd (fst st)) = false -> Forall (fun e => e <> CCloseAndRecv W) evs ->
       sent_up (snd st') = sent_up (snd st) ++ flat_map (fun e => match e with CSend _ v => [v] | _ => [] end) evs)) as X.
  { destruct (X ((w, mkPipe [] [] false op), mkLog [] [] [] [])) as [A B]. split; [exact A|]. intros N. exact (B eq_refl N). }
  pose proof SO as (W0 & UE & UD & UQ & UX & UC & PL & NO). pose proof AO as (A1 & A2 & A3).
  pose proof (sent_arrives sc W0 UE UD UQ UX UC PL NO W E al nested A1 A2 A3 of_err crashed) as SA.
  induction F as [|e evs Fe F IH]; intros st; cbn zeta; cbn [fold_left flat_map]; [rewrite !app_nil_r; auto|].
  set (st1 := run_event sc W E al nested impl of_err ended crashed status svcs m st e).
  assert (sent_down (snd st1) = sent_down (snd st) ++ match e with SSend _ v => [v] | _ => [] end /\
    (closed (snd (fst st)) = false -> e <> CCloseAndRecv W -> closed (snd (fst st1)) = false /\
       sent_up (snd st1) = sent_up (snd st) ++ match e with CSend _ v => [v] | _ => [] end)) as [S1 S2].
  { subst st1. clear IH. destruct st as [[w0 [u dn cl o]] [su gu sd gd]]. cbn [snd fst sent_down sent_up closed].
    destruct e as [v| | |v| |f]; cbn [sends_ok] in Fe; unfold run_event; rewrite ?app_nil_r.
    - destruct (SA _ v Fe) as (b & Eb & _).
      cbn [exec gen_client_send step evals eval look String.eqb Ascii.eqb Bool.eqb io_send client_stream_io fst snd closed up down opened]. rewrite Eb.
      destruct cl; cbn; (split; [reflexivity|]); [discriminate|auto].
    - cbn [exec gen_client_recv step io_alloc client_stream_io]. unfold lift. cbn [fst snd]. destruct (al w0 (rm_out m)) as [w1 o1].
      cbn [exec step eval look String.eqb Ascii.eqb Bool.eqb io_recv client_stream_io fst snd up down closed opened].
      destruct (take _ _ _ _ _ _ _ _ _ dn) as [[[x|] v'] q]; cbn; auto.
    - cbn [exec gen_close_and_recv step eval io_close client_stream_io fst snd up down closed opened io_alloc]. unfold lift. cbn [fst snd].
      destruct (al w0 (rm_out m)) as [w1 o1]. cbn [exec step eval look String.eqb Ascii.eqb Bool.eqb io_recv client_stream_io fst snd up down closed opened].
      destruct (take _ _ _ _ _ _ _ _ _ dn) as [[[x|] v'] q]; cbn; (split; [reflexivity|]); intros _ H; now contradiction H.
    - destruct (SA _ v Fe) as (b & Eb & _).
      cbn [exec gen_server_send step evals eval look String.eqb Ascii.eqb Bool.eqb io_send server_stream_io fst snd closed up down opened]. rewrite Eb. cbn. auto.
    - cbn [exec gen_server_recv step io_alloc server_stream_io]. unfold lift. cbn [fst snd]. destruct (al w0 (rm_in m)) as [w1 o1].
      cbn [exec step eval look String.eqb Ascii.eqb Bool.eqb io_recv server_stream_io fst snd up down closed opened].
      destruct (take _ _ _ _ _ _ _ _ _ u) as [[[x|] v'] q]; cbn; auto.
    - cbn. auto. }
  destruct (IH st1) as [I1 I2]. split; [rewrite I1, S1; now rewrite <- app_assoc|].
  intros C N. inversion N as [|? ? N1 N2]; subst. destruct (S2 C N1) as [C' S']. rewrite (I2 C' N2), S'. now rewrite <- app_assoc.
Qed.
Print Assumptions C66_stream_sent.

(** CloseAndRecv closes the client's side: the server learns that no more messages come, and a
    later Send of the client sends nothing. *)
Theorem C66_stream_close : forall sc W E al nested impl of_err ended crashed status svcs m (w : W) op evs evs',
  let after evs := run_stream sc W E al nested impl of_err ended crashed status svcs m (w, mkPipe [] [] false op) evs in
  closed (snd (fst (after (evs ++ CCloseAndRecv W :: evs')))) = true /\
  sent_up (snd (after (evs ++ CCloseAndRecv W :: evs'))) = sent_up (snd (after evs)).
Proof.
  intros sc W E al nested impl of_err ended crashed status svcs m w op evs evs'. cbn zeta. unfold run_stream. rewrite fold_left_app. cbn [fold_left].
  set (st := fold_left _ evs _). clearbody st. set (st1 := run_event _ _ _ _ _ _ _ _ _ _ _ _ st _).
  assert (closed (snd (fst st1)) = true /\ sent_up (snd st1) = sent_up (snd st)) as [C S].
  { subst st1. destruct st as [[w0 [u dn cl o]] [su gu sd gd]]. unfold run_event.
    cbn [exec gen_close_and_recv step eval io_close client_stream_io fst snd up down closed opened io_alloc]. unfold lift. cbn [fst snd].
    destruct (al w0 (rm_out m)) as [w1 o1]. cbn [exec step eval look String.eqb Ascii.eqb Bool.eqb io_recv client_stream_io fst snd up down closed opened].
    destruct (take _ _ _ _ _ _ _ _ _ dn) as [[[x|] v'] q]; cbn; auto. }
  rewrite <- S. clearbody st1. clear S st. revert st1 C. induction evs' as [|e evs' IH]; intros st C; [cbn [fold_left]; auto|]. cbn [fold_left].
  set (st2 := run_event _ _ _ _ _ _ _ _ _ _ _ _ st e).
  assert (closed (snd (fst st2)) = true /\ sent_up (snd st2) = sent_up (snd st)) as [C2 S2].
  { subst st2. clear IH. destruct st as [[w0 [u dn cl o]] [su gu sd gd]]. cbn [snd fst closed] in C. subst cl. cbn [snd fst sent_up].
    destruct e as [v| | |v| |f]; unfold run_event.
    - cbn [exec gen_client_send step evals eval look String.eqb Ascii.eqb Bool.eqb io_send client_stream_io fst snd closed up down opened].
      destruct (encode _ _ _ _ _); cbn; auto.
    - cbn [exec gen_client_recv step io_alloc client_stream_io]. unfold lift. cbn [fst snd]. destruct (al w0 (rm_out m)) as [w1 o1].
      cbn [exec step eval look String.eqb Ascii.eqb Bool.eqb io_recv client_stream_io fst snd up down closed opened].
      destruct (take _ _ _ _ _ _ _ _ _ dn) as [[[x|] v'] q]; cbn; auto.
    - cbn [exec gen_close_and_recv step eval io_close client_stream_io fst snd up down closed opened io_alloc]. unfold lift. cbn [fst snd].
      destruct (al w0 (rm_out m)) as [w1 o1]. cbn [exec step eval look String.eqb Ascii.eqb Bool.eqb io_recv client_stream_io fst snd up down closed opened].
      destruct (take _ _ _ _ _ _ _ _ _ dn) as [[[x|] v'] q]; cbn; auto.
    - cbn [exec gen_server_send step evals eval look String.eqb Ascii.eqb Bool.eqb io_send server_stream_io fst snd closed up down opened].
      destruct (encode _ _ _ _ _); cbn; auto.
    - cbn [exec gen_server_recv step io_alloc server_stream_io]. unfold lift. cbn [fst snd]. destruct (al w0 (rm_in m)) as [w1 o1].
      cbn [exec step eval look String.eqb Ascii.eqb Bool.eqb io_recv server_stream_io fst snd up down closed opened].
      destruct (take _ _ _ _ _ _ _ _ _ u) as [[[x|] v'] q]; cbn; auto.
    - cbn. auto. }
  rewrite <- S2. apply IH. exact C2.
Qed.
Print Assumptions C66_stream_close.

(** While a message is under way, the other side's next Recv returns it. *)
Theorem C66_stream_next : forall sc W E al nested impl of_err ended crashed status svcs m (w : W) op evs,
  schema_ok sc -> alloc_ok sc al nested -> Forall (sends_ok sc m) evs ->
  let after evs := snd (run_stream sc W E al nested impl of_err ended crashed status svcs m (w, mkPipe [] [] false op) evs) in
  ((List.length (got_up (after evs)) < List.length (sent_up (after evs)))%nat ->
     List.length (got_up (after (evs ++ [SRecv W]))) = S (List.length (got_up (after evs)))) /\
  ((List.length (got_down (after evs)) < List.length (sent_down (after evs)))%nat ->
     List.length (got_down (after (evs ++ [CRecv W]))) = S (List.length (got_down (after evs))) /\
     List.length (got_down (after (evs ++ [CCloseAndRecv W]))) = S (List.length (got_down (after evs)))).
Proof.
  intros sc W E al nested impl of_err ended crashed status svcs m w op evs SO AO F. cbn zeta. unfold run_stream. rewrite !fold_left_app. cbn [fold_left].
  assert (inv sc W E of_err crashed m ((w, mkPipe [] [] false op), mkLog [] [] [] [])) as I0.
  { cbn. split; [constructor|]. split; [constructor|]. split; exists [], []; auto. }
  pose proof (inv_run sc W E al nested impl of_err ended crashed status svcs SO AO m evs _ I0 F) as I.
  destruct (fold_left _ evs _) as [[w' [u dn cl o]] [su gu sd gd]]. cbn [snd got_up sent_up got_down sent_down].
  destruct I as (S1 & S2 & D1 & D2). cbn [sent_up got_up sent_down got_down up down] in *. 
  assert (forall t s g (q : list (list Z)), delivered sc E of_err crashed t s g q -> (List.length g < List.length s)%nat -> q <> []) as NE.
  { intros t s g q (r & pn & -> & A & B) L ->. inversion B; subst. rewrite app_nil_r in L. assert (List.length r = List.length g) by (clear -A; induction A; cbn; lia). lia. }
  split; [|intros L; split].
  - intros L. destruct u as [|b u]; [now contradiction (NE _ _ _ _ D1 L)|]. unfold run_event.
    cbn [exec gen_server_recv step io_alloc server_stream_io]. unfold lift. cbn [fst snd]. destruct (al w' (rm_in m)) as [w1 o1] eqn:Al.
    cbn [exec step eval look String.eqb Ascii.eqb Bool.eqb io_recv server_stream_io fst snd up down closed opened take].
    destruct (deliver_recv sc W E al nested of_err crashed SO AO _ _ _ _ _ S1 D1 w1 w') as (v' & Dc & _). rewrite Al in Dc. cbn [snd] in Dc. rewrite Dc. cbn. rewrite app_length. cbn. lia.
  - destruct dn as [|b dn]; [now contradiction (NE _ _ _ _ D2 L)|]. unfold run_event.
    cbn [exec gen_client_recv step io_alloc client_stream_io]. unfold lift. cbn [fst snd]. destruct (al w' (rm_out m)) as [w1 o1] eqn:Al.
    cbn [exec step eval look String.eqb Ascii.eqb Bool.eqb io_recv client_stream_io fst snd up down closed opened take].
    destruct (deliver_recv sc W E al nested of_err crashed SO AO _ _ _ _ _ S2 D2 w1 w') as (v' & Dc & _). rewrite Al in Dc. cbn [snd] in Dc. rewrite Dc. cbn. rewrite app_length. cbn. lia.
  - destruct dn as [|b dn]; [now contradiction (NE _ _ _ _ D2 L)|]. unfold run_event.
    cbn [exec gen_close_and_recv step eval io_close client_stream_io fst snd up down closed opened io_alloc]. unfold lift. cbn [fst snd].
    destruct (al w' (rm_out m)) as [w1 o1] eqn:Al. cbn [exec step eval look String.eqb Ascii.eqb Bool.eqb io_recv client_stream_io fst snd up down closed opened take].
    destruct (deliver_recv sc W E al nested of_err crashed SO AO _ _ _ _ _ S2 D2 w1 w') as (v' & Dc & _). rewrite Al in Dc. cbn [snd] in Dc. rewrite Dc. cbn. rewrite app_length. cbn. lia.
Qed.
Print Assumptions C66_stream_next.

(** * Examples *)
(** p.Store: unary Get, bidirectional Chat, server-streaming List, client-streaming Put, unary Fail;
    and another service with a unary Get.  The messages are the pooled Node of C37, drawn from a
    pool with recycled messages. *)
Definition rp_m (n : string) (c s : bool) : rmethod := mkRmethod (mkMethod (bytes n) (bytes n) c s) 0 0.
Definition rp_s : rservice := mkRservice (bytes "p.Store") (bytes "Store") [rp_m "Get" false false; rp_m "Chat" true true; rp_m "List" false true; rp_m "Put" true false; rp_m "Fail" false false].
Definition rp_svcs : list rservice := [mkRservice (bytes "p.Other") (bytes "Other") [rp_m "Get" false false]; rp_s].
(** The state: the calls of the implementation so far. *)
Definition rp_w : Type := list (str * str * list (nat * val) * bool).
Definition rp_al (w : rp_w) (m : nat) : rp_w * val := (w, pl_al [] m).
Definition rp_nested (w : rp_w) : list Z -> nat -> val := pl_al.
Definition rp_impl (w : rp_w) (s me : str) (a : list (nat * val)) (b : bool) : rp_w * list (rval Z) :=
  (w ++ [(s, me, a, b)], if str_eqb me (bytes "Fail") then [XNil Z; XE Z (Some 7)] else match a with [(m, v)] => [XM Z m v; XE Z None] | _ => [XE Z None] end).
Definition rp_err (e : err) : Z := 100.
Lemma pl_schema_ok : schema_ok pl_sc.
Proof.
  pose proof pl_up as (A & B & C & D). split; [apply pl_wf|]. split; [split; intros; reflexivity|]. do 4 (split; [assumption|]). split; [apply pl_local|apply pl_no_opt].
Qed.
Lemma rp_alloc_ok : alloc_ok pl_sc rp_al rp_nested.
Proof.
  assert (forall path m, md_pool (md_of pl_sc m) = true -> drawn pl_sc (in_pool pl_pool) m (pl_al path m)) as D.
  { intros path [|[|m]] P; [left; right; now left|left; now left|now right]. }
  split; [|split].
  - intros w m P. exists pl_pool. split; [apply pl_reach|]. now apply D.
  - intros w [|[|m]] P; [discriminate P|discriminate P|reflexivity].
  - intros w. exists pl_pool. split; [apply pl_reach|exact D].
Qed.
Lemma rp_named : well_named rp_svcs.
Proof.
  Ltac nd := cbn; repeat (constructor; [cbn; intuition discriminate|]); constructor.
  split; [nd|]. split; [nd|].
  intros s [<-|[<-|[]]]; (split; [nd|]; split; [nd|]);
    intros m Hm; cbn in Hm; repeat (destruct Hm as [<-|Hm]; [cbn; intuition discriminate|]); destruct Hm.
Qed.
Lemma pl_sendable : sendable pl_sc 0 pl_live.
Proof.
  split; [reflexivity|]. split; [now apply (check_ok pl_sc 5)|]. split; [apply (free_b_ok pl_sc 5); reflexivity|]. split.
  - apply (decodable_b_ok pl_sc (fun _ _ => false) (fun _ u => match u with [] => true | _ => false end)) with (n := 5%nat); [easy| |reflexivity].
    intros m [|b u] H; [|discriminate H]. exists []. split; [reflexivity|constructor].
  - eexists. split; [vm_compute; reflexivity|]. vm_compute. reflexivity.
Qed.
Example C66_nonvacuous :
  schema_ok pl_sc /\ alloc_ok pl_sc rp_al rp_nested /\ well_named rp_svcs /\ In rp_s rp_svcs /\ sendable pl_sc 0 pl_live /\
  (exists w v, call_unary pl_sc rp_w Z rp_al rp_nested rp_impl None rp_err 1 2 (fun _ => 3) rp_svcs [] rp_s (rp_m "Get" false false) 0 pl_live = Some (w, Some (v, None)) /\
     List.length w = 1%nat /\ EqualVT pl_sc (fun _ => false) 0 pl_live v = true /\ pl_live <> v) /\
  (exists w, call_unary pl_sc rp_w Z rp_al rp_nested rp_impl None rp_err 1 2 (fun _ => 3) rp_svcs [] rp_s (rp_m "Fail" false false) 1 pl_live = Some (w, Some (VNil, Some 7))).
Proof.
  split; [apply pl_schema_ok|]. split; [apply rp_alloc_ok|]. split; [apply rp_named|]. split; [right; now left|]. split; [apply pl_sendable|]. split.
  - do 2 eexists. split; [vm_compute; reflexivity|]. split; [reflexivity|]. split; [vm_compute; reflexivity|]. discriminate.
  - eexists. vm_compute. reflexivity.
Qed.
(** Three messages up and one down, received in another interleaving. *)
Definition rp_events : list (sevent rp_w) :=
  [CSend _ pl_live; SRecv _; CSend _ (new_msg (md_of pl_sc 0)); CSend _ pl_live; Rest _ (fun w => []); SSend _ pl_live; SRecv _; CRecv _].
Lemma pl_new_sendable : sendable pl_sc 0 (new_msg (md_of pl_sc 0)).
Proof.
  split; [reflexivity|]. split; [now apply (check_ok pl_sc 5)|]. split; [apply (free_b_ok pl_sc 5); reflexivity|]. split.
  - apply (decodable_b_ok pl_sc (fun _ _ => false) (fun _ u => match u with [] => true | _ => false end)) with (n := 5%nat); [easy| |reflexivity].
    intros m [|b u] H; [|discriminate H]. exists []. split; [reflexivity|constructor].
  - eexists. split; [vm_compute; reflexivity|]. vm_compute. reflexivity.
Qed.
Example C66_streams_nonvacuous : Forall (sends_ok pl_sc (rp_m "Chat" true true)) rp_events /\
  let '((_, p), l) := run_stream pl_sc rp_w Z rp_al rp_nested rp_impl rp_err 4 2 (fun _ => 3) rp_svcs (rp_m "Chat" true true) ([], mkPipe [] [] false None) rp_events in
  List.length (got_up l) = 2%nat /\ List.length (up p) = 1%nat /\ List.length (got_down l) = 1%nat /\
  map (fun x => SizeVT pl_sc 0 x) (got_up l) = [SizeVT pl_sc 0 pl_live; 0].
Proof.
  split; [|vm_compute; auto].
  unfold rp_events. repeat (apply Forall_cons; [cbn [sends_ok rp_m rm_in rm_out]; first [exact I|apply pl_sendable|apply pl_new_sendable]|]). apply Forall_nil.
Qed.

(** * The text *)
(** The stubs in /repo/testproto/grpc/grpc_vtproto.pb.go. *)
Definition tg_names (m : nat) : string := nth m ["inner.TestMessageRequest"; "inner.TestMessageResponse"; "LocalTestMessageRequest"; "LocalTestMessageResponse"] "".
Definition tg_svcs : list rservice :=
  [mkRservice (bytes "TestService") (bytes "TestService") [mkRmethod (mkMethod (bytes "TestRPC") (bytes "TestRPC") false false) 0 1];
   mkRservice (bytes "TestServiceLocal") (bytes "TestServiceLocal") [mkRmethod (mkMethod (bytes "TestRPCLocal") (bytes "TestRPCLocal") false false) 2 3]].
Example C66_text : genFile tg_names (fun _ => true) true "testproto/grpc/grpc.proto" tg_svcs = squeeze text_grpc.
Proof. apply String.eqb_eq. vm_compute. reflexivity. Qed.

(** * C67 *)
(** Within a service, methods with different Go names get different handlers and stream types. *)
Theorem C67_one_service_partial : forall s m m', me_goname (rpc m) <> me_goname (rpc m') ->
  hname (bare s) (rpc m) <> hname (bare s) (rpc m') /\ clientStreamType s m <> clientStreamType s m' /\ serverStreamType s m <> serverStreamType s m' /\
  clientStreamType s m <> serverStreamType s m'.
Proof.
  intros s m m' N. unfold hname, clientStreamType, serverStreamType. cbn [bare sv_go].
  repeat split; intros H; apply N || idtac.
  - apply app_inv_head in H. apply app_inv_head in H. apply app_inv_head in H. now apply app_inv_tail in H.
  - apply app_inv_head in H. now apply app_inv_tail in H.
  - apply app_inv_head in H. now apply app_inv_tail in H.
  - apply app_inv_head in H. exfalso. apply (f_equal (@rev Z)) in H. rewrite !rev_app_distr in H. discriminate H.
Qed.
Print Assumptions C67_one_service_partial.
(** In a file with two services they may coincide: the services A_B and A with the methods C and
    B_C (GoCamelCase keeps an underscore before an upper-case letter) get handlers of the same name,
    and A and AB with the streaming methods BC and C stream types of the same name.  The printed file
    declares the name twice and does not compile. *)
Theorem C67_refuted :
  (exists s s' m m', rs_full s <> rs_full s' /\ rs_go s <> rs_go s' /\ well_named [s; s'] /\ In m (rs_methods s) /\ In m' (rs_methods s') /\
     hname (bare s) (rpc m) = hname (bare s') (rpc m') /\
     forall tname pool, prefix "func_A_B_C_Handler(srv" (genServerMethod tname pool s m) = true /\
                        prefix "func_A_B_C_Handler(srv" (genServerMethod tname pool s' m') = true) /\
  (exists s s' m m', rs_full s <> rs_full s' /\ rs_go s <> rs_go s' /\ well_named [s; s'] /\ In m (rs_methods s) /\ In m' (rs_methods s') /\
     clientStreamType s m = clientStreamType s' m' /\ serverStreamType s m = serverStreamType s' m').
Proof.
  split.
  - exists (mkRservice (bytes "p.A_B") (bytes "A_B") [rp_m "C" false false]), (mkRservice (bytes "p.A") (bytes "A") [rp_m "B_C" false false]), (rp_m "C" false false), (rp_m "B_C" false false).
    split; [discriminate|]. split; [discriminate|]. split; [|split; [now left|split; [now left|split; [reflexivity|split; reflexivity]]]].
    split; [nd|]. split; [nd|]. intros s [<-|[<-|[]]]; (split; [nd|]; split; [nd|]); intros m [<-|[]]; cbn; intuition discriminate.
  - exists (mkRservice (bytes "p.A") (bytes "A") [rp_m "BC" true true]), (mkRservice (bytes "p.AB") (bytes "AB") [rp_m "C" true true]), (rp_m "BC" true true), (rp_m "C" true true).
    split; [discriminate|]. split; [discriminate|]. split; [|split; [now left|split; [now left|split; reflexivity]]].
    split; [nd|]. split; [nd|]. intros s [<-|[<-|[]]]; (split; [nd|]; split; [nd|]); intros m [<-|[]]; cbn; intuition discriminate.
Qed.
Print Assumptions C67_refuted.
Example C67_nonvacuous : me_goname (rpc (rp_m "Chat" true true)) <> me_goname (rpc (rp_m "Put" true false)) /\
  hname (bare rp_s) (rpc (rp_m "Chat" true true)) = bytes "_Store_Chat_Handler" /\ clientStreamType rp_s (rp_m "Chat" true true) = bytes "storeChatClient".
Proof. split; [discriminate|]. split; reflexivity. Qed.
