(** C79: the printed RPC stubs obey the static rules of Go (GoTypesRpc.v;
    /repo/features/grpc/grpc.go:223-416 prints them). *)
From Coq Require Import ZArith List Bool String Ascii Arith Lia.
From Verif Require Import Base Schema Value Unmarshal Generator GoSyntax GoRpc GenRpc GoTypesRpc PropsRpc.
Import ListNotations.
Open Scope string_scope.
Open Scope Z_scope.
Open Scope list_scope.

(** * The declarations a service consists of *)
Definition is_unary (m : rmethod) : bool := negb (me_client (rpc m)) && negb (me_server (rpc m)).
Definition when {A} (b : bool) (a : A) : list A := if b then [a] else [].
(** The interface S_MClient or S_MServer of a stream. *)
Definition stream_iface (s : rservice) (m : rmethod) (e : string) : str := rs_go s ++ bytes "_" ++ me_goname (rpc m) ++ bytes e.
(** The client's method (grpc.go:223-237) and the server's (321-334). *)
Definition client_params (m : rmethod) : list (string * rty) :=
  [("ctx", GCtx)] ++ when (negb (me_client (rpc m))) ("in", GMsg (rm_in m)) ++ [("opts", GOpts)].
Definition client_results (s : rservice) (m : rmethod) : list rty :=
  [if is_unary m then GMsg (rm_out m) else GNamed (stream_iface s m "Client"); GErr].
Definition server_sig (s : rservice) (m : rmethod) : rsig :=
  (when (is_unary m) GCtx ++ when (negb (me_client (rpc m))) (GMsg (rm_in m)) ++ when (negb (is_unary m)) (GNamed (stream_iface s m "Server")),
   when (is_unary m) (GMsg (rm_out m)) ++ [GErr]).
(** What genClientMethod declares (grpc.go:238-319). *)
Definition client_decls (s : rservice) (m : rmethod) (index : nat) : list rdecl :=
  let i := GMsg (rm_in m) in let o := GMsg (rm_out m) in let st := clientStreamType s m in
  let send := me_client (rpc m) in let recv := me_server (rpc m) in
  DFunc (mkFn (Some ("c", unexport (rs_go s) ++ bytes "Client")) (me_goname (rpc m)) (client_params m) (client_results s m) (gen_client s m index)) ::
  if is_unary m then [] else
    [DIface (stream_iface s m "Client")
       (when send (bytes "Send", ([i], [GErr])) ++ when recv (bytes "Recv", ([], [o; GErr])) ++ when (negb recv) (bytes "CloseAndRecv", ([], [o; GErr]))) (GStream false);
     DStruct st (GStream false)] ++
    when send (DFunc (mkFn (Some ("x", st)) (bytes "Send") [("m", i)] [GErr] gen_client_send)) ++
    when recv (DFunc (mkFn (Some ("x", st)) (bytes "Recv") [] [o; GErr] (gen_client_recv m))) ++
    when (negb recv) (DFunc (mkFn (Some ("x", st)) (bytes "CloseAndRecv") [] [o; GErr] (gen_close_and_recv m))).
(** What genServerMethod declares (grpc.go:336-416). *)
Definition server_decls (s : rservice) (m : rmethod) : list rdecl :=
  let i := GMsg (rm_in m) in let o := GMsg (rm_out m) in let st := serverStreamType s m in
  let send := me_server (rpc m) in let recv := me_client (rpc m) in
  if is_unary m then
    [DFunc (mkFn None (hname (bare s) (rpc m)) [("srv", GAny); ("ctx", GCtx); ("dec", GDec); ("interceptor", GIcpt)] [GAny; GErr] (gen_handler s m))]
  else
    [DFunc (mkFn None (hname (bare s) (rpc m)) [("srv", GAny); ("stream", GStream true)] [GErr] (gen_handler s m));
     DIface (stream_iface s m "Server")
       (when send (bytes "Send", ([o], [GErr])) ++ when (negb send) (bytes "SendAndClose", ([o], [GErr])) ++ when recv (bytes "Recv", ([], [i; GErr]))) (GStream true);
     DStruct st (GStream true)] ++
    when send (DFunc (mkFn (Some ("x", st)) (bytes "Send") [("m", o)] [GErr] gen_server_send)) ++
    when (negb send) (DFunc (mkFn (Some ("x", st)) (bytes "SendAndClose") [("m", o)] [GErr] gen_server_send)) ++
    when recv (DFunc (mkFn (Some ("x", st)) (bytes "Recv") [] [i; GErr] (gen_server_recv m))).

(** * Their text is what is printed *)
Lemma sapp_assoc (a b c : string) : ((a ++ b) ++ c = a ++ (b ++ c))%string.
Proof. induction a as [|x a IH]; [reflexivity|]. cbn. rewrite IH. reflexivity. Qed.
Lemma sapp_nil (a : string) : (a ++ "" = a)%string.
Proof. induction a as [|x a IH]; [reflexivity|]. cbn. rewrite IH. reflexivity. Qed.
Lemma text_app a b : text (a ++ b) = (text a ++ text b)%string.
Proof.
  unfold text. rewrite map_app. induction (map _ a) as [|x l IH]; [reflexivity|]. cbn. rewrite IH. reflexivity.
Qed.

(** Every function, interface and struct printed for a method is one of the declarations above. *)
Theorem C79_text : forall tname pool s m index,
  genClientMethod tname pool s m index = String.concat "" (map (print_rdecl tname pool) (client_decls s m index))
  /\ genServerMethod tname pool s m = String.concat "" (map (print_rdecl tname pool) (server_decls s m))
  /\ clientSignature tname s m = print_named tname (me_goname (rpc m)) (client_params m) (client_results s m)
  /\ serverSignature tname s m = print_method tname (me_goname (rpc m), server_sig s m).
Proof.
  intros tname pool s m index.
  assert (Ec : text (bytes "Client") = "Client") by reflexivity.
  assert (Es : text (bytes "Server") = "Server") by reflexivity.
  assert (Eu : text (bytes "_") = "_") by reflexivity.
  assert (E1 : text (bytes "Send") = "Send") by reflexivity.
  assert (E2 : text (bytes "Recv") = "Recv") by reflexivity.
  assert (E3 : text (bytes "CloseAndRecv") = "CloseAndRecv") by reflexivity.
  assert (E4 : text (bytes "SendAndClose") = "SendAndClose") by reflexivity.
  unfold genClientMethod, genServerMethod, clientSignature, serverSignature, client_decls, server_decls, client_params, client_results, server_sig, is_unary, stream_iface, when.
  generalize (gen_client s m index), (gen_handler s m), (gen_client_recv m), (gen_close_and_recv m), (gen_server_recv m), gen_client_send, gen_server_send. intros b1 b2 b3 b4 b5 b6 b7.
  generalize (clientStreamType s m), (serverStreamType s m), (hname (bare s) (rpc m)), (unexport (rs_go s)). intros st1 st2 hn un.
  destruct (me_client (rpc m)), (me_server (rpc m)); cbn [negb andb orb opt];
    (split; [|split; [|split]]);
    unfold cat, print_rdecl, print_rfunc, print_named, print_method, print_results; cbn [map app fst snd fn_recv fn_name fn_params fn_results fn_body print_rty];
    rewrite ?text_app, ?Ec, ?Es, ?Eu, ?E1, ?E2, ?E3, ?E4; cbn [String.concat]; repeat (rewrite ?sapp_assoc; cbn [String.append]); rewrite ?sapp_nil; try reflexivity.
Qed.
Print Assumptions C79_text.

(** * The compiler accepts them *)
Lemma str_refl a : str_eqb a a = true.
Proof. unfold str_eqb. destruct (list_eq_dec Z.eq_dec a a); congruence. Qed.
Lemma imeth_first n s l : imeth n ((n, s) :: l) = Some s.
Proof. cbn. rewrite str_refl. reflexivity. Qed.

(** What the rest of the file declares for a method (grpc.go:66-82, 109-142, 183-220): the struct of
    the client, the interface of the server with the method, the descriptor. *)
Definition service_declares (D : renv) (s : rservice) (m : rmethod) : Prop :=
  e_struct D (unexport (rs_go s) ++ bytes "Client") = Some GConn
  /\ (exists ms emb, e_iface D (rs_go s ++ bytes "Server") = Some (ms, emb) /\ imeth (me_goname (rpc m)) ms = Some (server_sig s m))
  /\ e_desc D (rs_go s) = true.

(** In every package that declares these, every function printed for a method of a service is accepted,
    streaming or not. *)
Theorem C79_stubs : forall D s m index, service_declares D s m ->
  (forall d, In d (client_decls s m index ++ server_decls s m) -> declares D d) ->
  (forall f, In (DFunc f) (client_decls s m index ++ server_decls s m) -> rcompiles D f = true)
  /\ rcompiles D (mkFn None (me_goname (rpc m)) [] (snd (server_sig s m)) (gen_unimplemented m)) = true.
Proof.
  intros D s m index (HC & (ms & emb & HI & HS) & HD) H.
  assert (A : forall d, In d (client_decls s m index) -> declares D d) by (intros d I; apply H, in_or_app; auto).
  assert (B : forall d, In d (server_decls s m) -> declares D d) by (intros d I; apply H, in_or_app; auto). clear H.
  unfold client_decls, server_decls, gen_client, gen_handler, gen_unimplemented, is_unary, server_sig, client_params, client_results, when in *.
  destruct (me_client (rpc m)) eqn:C, (me_server (rpc m)) eqn:S; unfold is_unary in *; rewrite ?C, ?S in *; cbn [negb andb app] in *.
  all: repeat match goal with
    | H : forall d, In d (?a :: ?l) -> declares ?E d |- _ =>
        let X := fresh "X" in pose proof (H a (or_introl eq_refl)) as X; cbn [declares fn_recv fn_name fn_params fn_results map snd] in X;
        assert (forall d, In d l -> declares E d) by (intros ? ?; apply H; now right); clear H
    end.
  all: split; [intros f I; cbn [In] in I; repeat (destruct I as [I|I]; [try discriminate I; injection I as <-|]); try destruct I|].
  all: unfold rcompiles, gen_client_send, gen_client_recv, gen_close_and_recv, gen_server_send, gen_server_recv; cbn [fn_recv fn_params fn_results fn_body app].
  all: repeat first
    [ progress (unfold nil_err, rassigns, rassignable, rimplements, rguard, rembeds, ris, rhas, on_side, sig_eqb in *)
    | progress cbn -[bytes str_eqb unexport clientStreamType serverStreamType stream_iface sname]
    | rewrite str_refl | rewrite Nat.eqb_refl
    | match goal with
      | H : ?a = Some _ |- context [?a] => rewrite H
      | H : ?a = true |- context [?a] => rewrite H
      end ].
  all: try reflexivity.
Qed.
Print Assumptions C79_stubs.

(** A service with a method of each kind, and what its file declares. *)
Definition cr_m (n : string) (c v : bool) : rmethod := mkRmethod (mkMethod (bytes n) (bytes n) c v) 0 1.
Definition cr_s : rservice := mkRservice (bytes "pkg.Foo") (bytes "Foo") [cr_m "Get" false false; cr_m "List" false true; cr_m "Put" true false; cr_m "Chat" true true].
Definition env_of (s : rservice) (l : list rdecl) : renv :=
  let iface := DIface (rs_go s ++ bytes "Server") (map (fun m => (me_goname (rpc m), server_sig s m)) (rs_methods s)) GAny in
  let l := iface :: DStruct (unexport (rs_go s) ++ bytes "Client") GConn :: l in
  let pick {A} (f : rdecl -> option A) := fold_right (fun d r => match f d with Some a => Some a | None => r end) None l in
  mkEnv (fun n => pick (fun d => match d with DIface k ms e => if str_eqb k n then Some (ms, e) else None | _ => None end))
        (fun n => pick (fun d => match d with DStruct k e => if str_eqb k n then Some e else None | _ => None end))
        (fun t n => pick (fun d => match d with DFunc f => match fn_recv f with Some (_, k) => if str_eqb k t && str_eqb (fn_name f) n then Some (fn_sig f) else None | None => None end | _ => None end))
        (fun n => str_eqb n (rs_go s)).
Definition cr_decls : list rdecl := flat_map (fun m => client_decls cr_s m 0 ++ server_decls cr_s m) (rs_methods cr_s).
Definition cr_env : renv := env_of cr_s cr_decls.
Example C79_nonvacuous : List.length cr_decls = 30%nat /\ forall m, In m (rs_methods cr_s) ->
  service_declares cr_env cr_s m /\ (forall d, In d (client_decls cr_s m 0 ++ server_decls cr_s m) -> declares cr_env d).
Proof.
  split; [reflexivity|]. intros m I. cbn in I.
  repeat (destruct I as [<-|I]; [split; [split; [reflexivity|split; [do 2 eexists; split; [vm_compute; reflexivity|vm_compute; reflexivity]|reflexivity]]|
    intros d H; vm_compute in H; repeat (destruct H as [<-|H]; [vm_compute; first [reflexivity|exact Logic.I]|]); destruct H]|]). destruct I.
Qed.

(** The rules are not empty: lines that change one thing of an accepted function. *)
Example C79_rejects :
  let ok recv ps rs b := rcompiles cr_env (mkFn recv (bytes "F") ps rs b) in
  let c := Some ("c", bytes "fooClient") in
  let x := Some ("x", bytes "fooListClient") in
  let list := GNamed (bytes "Foo_ListClient") in
  let p := [("ctx", GCtx); ("in", GMsg 0); ("opts", GOpts)] in
  let call := [RAlloc "out" 1; RInvoke (bytes "/pkg.Foo/Get"); RIfErr] in
  let open t := [RNewStream (bytes "Foo") 0 (bytes "/pkg.Foo/List"); RIfErr; RWrap (bytes t)] in
  let h := [("srv", GAny); ("ctx", GCtx); ("dec", GDec); ("interceptor", GIcpt)] in
  let hs := [("srv", GAny); ("stream", GStream true)] in
  let srv me args := ESrv (bytes "Foo") (bytes me) args in
  ok c p [GMsg 1; GErr] (call ++ [RReturn [EVar "out"; ENil]]) = true
  /\ ok c [("ctx", GCtx); ("opts", GOpts)] [GMsg 1; GErr] (call ++ [RReturn [EVar "out"; ENil]]) = false
  /\ ok x p [GMsg 1; GErr] (call ++ [RReturn [EVar "out"; ENil]]) = false
  /\ ok c p [GMsg 0; GErr] (call ++ [RReturn [EVar "out"; ENil]]) = false
  /\ ok c p [GMsg 1; GErr] (call ++ [RReturn [EVar "out"]]) = false
  /\ ok c p [GMsg 1; GErr] call = false
  /\ ok c p [GErr] (call ++ [RReturn [ENil]]) = false
  /\ ok c p [GMsg 1; GErr] (RAlloc "in" 0 :: call ++ [RReturn [EVar "out"; ENil]]) = false
  /\ ok c p [GMsg 1; GErr] ([RAlloc "out" 1; RInvoke (bytes "p"); RReturn [EVar "out"; ENil]]) = false
  /\ ok c p [list; GErr] (open "fooListClient" ++ [RTry (ESendMsg ClientStream "in") true; RReturn [EVar "x"; ENil]]) = true
  /\ ok c p [list; GErr] (open "fooChatClient" ++ [RTry (ESendMsg ClientStream "in") true; RReturn [EVar "x"; ENil]]) = true
  /\ ok c p [list; GErr] (open "fooPutClient" ++ [RTry (ESendMsg ClientStream "in") true; RReturn [EVar "x"; ENil]]) = false
  /\ ok c p [list; GErr] (open "fooListServer" ++ [RReturn [EVar "x"; ENil]]) = false
  /\ ok c p [list; GErr] (open "fooListClient" ++ [RTry (ESendMsg ServerStream "in") true; RReturn [EVar "x"; ENil]]) = false
  /\ ok c p [list; GErr] (open "fooListClient" ++ [RTry (ESendMsg ClientStream "in") false; RReturn [EVar "x"; ENil]]) = false
  /\ ok c p [list; GErr] (open "fooListClient" ++ [RReturn [ENil; ENil]]) = false
  /\ ok None h [GAny; GErr] [RAlloc "in" 0; RTry (EDec "in") true; RReturn [srv "Get" [AVar "ctx"; AVar "in"]]] = true
  /\ ok None h [GAny; GErr] [RAlloc "in" 1; RTry (EDec "in") true; RReturn [srv "Get" [AVar "ctx"; AVar "in"]]] = false
  /\ ok None h [GAny; GErr] [RAlloc "in" 0; RTry (EDec "in") true; RReturn [srv "Get" [AVar "in"]]] = false
  /\ ok None h [GAny; GErr] [RAlloc "in" 0; RTry (EDec "in") true; RReturn [srv "List" [AVar "ctx"; AVar "in"]]] = false
  /\ ok None h [GAny; GErr] [RAlloc "in" 0; RReturn [EIntercept]] = false
  /\ ok None h [GAny; GErr] [RAlloc "in" 0; RInfo (bytes "p"); RHandler (srv "Get" [AVar "ctx"; AAssert "req" 0]); RReturn [EIntercept]] = true
  /\ ok None h [GAny; GErr] [RAlloc "in" 0; RInfo (bytes "p"); RHandler (srv "Get" [AVar "ctx"; AAssert "req" 1]); RReturn [EIntercept]] = false
  /\ ok None h [GAny; GErr] [RAlloc "in" 0; RInfo (bytes "p"); RHandler (srv "Get" [AVar "ctx"; AVar "req"]); RReturn [EIntercept]] = false
  /\ ok None hs [GErr] [RReturn [srv "Put" [AStream (bytes "fooPutServer")]]] = true
  /\ ok None hs [GErr] [RReturn [srv "Put" [AStream (bytes "fooListServer")]]] = false
  /\ ok None hs [GErr] [RReturn [srv "Put" [AStream (bytes "fooPutClient")]]] = false.
Proof. vm_compute. repeat split; reflexivity. Qed.
