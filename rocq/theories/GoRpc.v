(** The Go of the bodies of the RPC stubs /repo/features/grpc/grpc.go prints: syntax, text and
    what running it does. *)
From Coq Require Import ZArith List Bool String Ascii.
From Verif Require Import Base Schema Value Unmarshal Generator GoSyntax.
Import ListNotations.
Open Scope string_scope.
Open Scope Z_scope.
Open Scope list_scope.

(** * Syntax *)
(** Which stream a call is on: the client side's, the server side's inside a stub object, or the
    server side's in a handler (grpc.go:265, 310, 363). *)
Inductive side := ClientStream | ServerStream | PlainStream.
(** Arguments of the server's methods (grpc.go:347-372). *)
Inductive rarg :=
| AVar (x : string)                  (* x *)
| AAssert (x : string) (m : nat)     (* x asserted to be a pointer to message m *)
| AStream (t : str).                 (* &t{stream} *)
Inductive rexp :=
| EVar (x : string)
| ENil
| ESendMsg (s : side) (x : string)   (* x.ClientStream.SendMsg(x) *)
| ERecvMsg (s : side) (x : string)   (* x.ClientStream.RecvMsg(x) *)
| ECloseSend                         (* x.ClientStream.CloseSend() *)
| EDec (x : string)                  (* dec(x) *)
| ESrv (svc me : str) (args : list rarg) (* srv.(svcServer).me(args) *)
| EIntercept                         (* interceptor(ctx, in, info, handler) *)
| EErrorf (me : str).                (* status.Errorf(codes.Unimplemented, "method me not implemented") *)
Inductive rstmt :=
| RAlloc (x : string) (m : nat)      (* x := new(T), or x := TFromVTPool() *)
| RInvoke (path : str)               (* err := c.cc.Invoke(ctx, path, in, out, opts...) *)
| RNewStream (desc : str) (i : nat) (path : str) (* stream, err := c.cc.NewStream(ctx, &desc_ServiceDesc.Streams[i], path, opts...) *)
| RIfErr                             (* if err != nil { return nil, err } *)
| RWrap (t : str)                    (* x := &t{stream} *)
| RTry (e : rexp) (two : bool)       (* if err := e; err != nil { return nil, err }; without nil if not [two] *)
| RReturn (l : list rexp)            (* return l *)
| RIfPlain (e : rexp)                (* if interceptor == nil { return e } *)
| RInfo (path : str)                 (* info := &grpc.UnaryServerInfo{Server: srv, FullMethod: path} *)
| RHandler (e : rexp).               (* handler := func(ctx context.Context, req interface{}) (interface{}, error) { return e } *)

(** * Text *)
(** A list of bytes as a Coq string. *)
Definition text (s : str) : string := string_of_list_ascii (map (fun c => ascii_of_nat (Z.to_nat c)) s).
Definition bytes (s : string) : str := map (fun c => Z.of_nat (nat_of_ascii c)) (list_ascii_of_string s).
Definition quoted (s : str) : string := """" ++ text s ++ """".
Section Print.
(** g.QualifiedGoIdent of a message, and b.ShouldPool (generatedfile.go:27-42, 54-65). *)
Variable tname : nat -> string.
Variable pool : nat -> bool.
Definition print_side (s : side) : string :=
  match s with ClientStream => "x.ClientStream" | ServerStream => "x.ServerStream" | PlainStream => "stream" end.
Definition print_arg (a : rarg) : string :=
  match a with AVar x => x | AAssert x m => (x ++ ".(*" ++ tname m ++ ")")%string | AStream t => ("&" ++ text t ++ "{stream}")%string end.
Definition print_rexp (e : rexp) : string :=
  match e with
  | EVar x => x
  | ENil => "nil"
  | ESendMsg s x => print_side s ++ ".SendMsg(" ++ x ++ ")"
  | ERecvMsg s x => print_side s ++ ".RecvMsg(" ++ x ++ ")"
  | ECloseSend => "x.ClientStream.CloseSend()"
  | EDec x => "dec(" ++ x ++ ")"
  | ESrv svc me args => "srv.(" ++ text svc ++ "Server)." ++ text me ++ "(" ++ String.concat "," (map print_arg args) ++ ")"
  | EIntercept => "interceptor(ctx,in,info,handler)"
  | EErrorf me => "status.Errorf(codes.Unimplemented,""method" ++ text me ++ "notimplemented"")"
  end%string.
(** Printed without white space. *)
Definition print_rstmt (s : rstmt) : string :=
  match s with
  | RAlloc x m => if pool m then x ++ ":=" ++ tname m ++ "FromVTPool()" else x ++ ":=new(" ++ tname m ++ ")"
  | RInvoke path => "err:=c.cc.Invoke(ctx," ++ quoted path ++ ",in,out,opts...)"
  | RNewStream desc i path => "stream,err:=c.cc.NewStream(ctx,&" ++ text desc ++ "_ServiceDesc.Streams[" ++ itoa (Z.of_nat i) ++ "]," ++ quoted path ++ ",opts...)"
  | RIfErr => "iferr!=nil{returnnil,err}"
  | RWrap t => "x:=&" ++ text t ++ "{stream}"
  | RTry e two => "iferr:=" ++ print_rexp e ++ ";err!=nil{return" ++ (if two then "nil,err}" else "err}")
  | RReturn l => "return" ++ String.concat "," (map print_rexp l)
  | RIfPlain e => "ifinterceptor==nil{return" ++ print_rexp e ++ "}"
  | RInfo path => "info:=&grpc.UnaryServerInfo{Server:srv,FullMethod:" ++ quoted path ++ ",}"
  | RHandler e => "handler:=func(ctxcontext.Context,reqinterface{})(interface{},error){return" ++ print_rexp e ++ "}"
  end%string.
Definition print_body (l : list rstmt) : string := String.concat "" (map print_rstmt l).
End Print.

(** * Semantics *)
(** What the stubs call is given from outside, as functions on a state [W]: the connection
    (grpc.ClientConnInterface), the stream the stub object wraps, the decoder and the
    interceptor of the server, the program's implementation of the service, and the pools.  [E]: error
    values.  A message argument comes with its type; the message a call decodes into is returned as
    it is after the call. *)
Section Sem.
Variables W E : Type.
(** Values of variables and results: a message pointer ([VNil]: nil), an error, the literal nil, a
    stream object, a grpc.UnaryServerInfo (its FullMethod), and the handler closure (the call it
    makes). *)
Inductive rval :=
| XM (m : nat) (v : val) | XE (e : option E) | XNil | XStream (t : str) | XInfo (path : str) | XFun (svc me : str) (args : list rarg).
Definition unary := (W * list rval)%type.
Record io := mkIo {
  io_alloc : W -> nat -> W * val;
  io_invoke : W -> str -> nat * val -> nat * val -> W * (option E * val);
  io_newstream : W -> sdesc -> str -> W * option E;
  io_send : W -> nat * val -> W * option E;
  io_close : W -> W * option E;
  io_recv : W -> nat * val -> W * (option E * val);
  io_dec : W -> nat * val -> W * (option E * val);
  io_srv : W -> str -> str -> list (nat * val) -> bool -> W * list rval;
  io_icpt : option (W -> str -> nat * val -> (W -> nat * val -> option unary) -> option unary);
  io_status : str -> E
}.
Variable x : io.
(** The Streams of the service descriptors, by Go name of the service. *)
Variable streams : str -> list sdesc.

Definition env := list (string * rval).
Fixpoint look (e : env) (n : string) : option rval :=
  match e with [] => None | (k, v) :: e' => if String.eqb k n then Some v else look e' n end.

(** The arguments of a call of the server: the messages, and whether a stream is passed.  A
    failing type assertion panics. *)
Fixpoint args_of (e : env) (l : list rarg) : option (list (nat * val) * bool) :=
  match l with
  | [] => Some ([], false)
  | a :: l' =>
    match args_of e l' with
    | None => None
    | Some (ms, s) =>
      match a with
      | AVar "ctx" => Some (ms, s)
      | AVar n => match look e n with Some (XM m v) => Some ((m, v) :: ms, s) | _ => None end
      | AAssert n t => match look e n with Some (XM m v) => if Nat.eqb m t then Some ((m, v) :: ms, s) else None | _ => None end
      | AStream _ => Some (ms, true)
      end
    end
  end.
Definition call_srv (e : env) (w : W) (svc me : str) (args : list rarg) : option unary :=
  match args_of e args with Some (ms, s) => Some (io_srv x w svc me ms s) | None => None end.

(** An expression: the state, the variables and the values after it; [None]: a panic, or not Go. *)
Definition eval (e : env) (w : W) (a : rexp) : option (W * env * list rval) :=
  match a with
  | EVar n => match look e n with Some v => Some (w, e, [v]) | None => None end
  | ENil => Some (w, e, [XNil])
  | ESendMsg _ n => match look e n with Some (XM m v) => let (w', r) := io_send x w (m, v) in Some (w', e, [XE r]) | _ => None end
  | ECloseSend => let (w', r) := io_close x w in Some (w', e, [XE r])
  | ERecvMsg _ n => match look e n with Some (XM m v) => let '(w', (r, v')) := io_recv x w (m, v) in Some (w', (n, XM m v') :: e, [XE r]) | _ => None end
  | EDec n => match look e n with Some (XM m v) => let '(w', (r, v')) := io_dec x w (m, v) in Some (w', (n, XM m v') :: e, [XE r]) | _ => None end
  | ESrv svc me args => match call_srv e w svc me args with Some (w', r) => Some (w', e, r) | None => None end
  | EIntercept =>
      match io_icpt x, look e "in", look e "info", look e "handler" with
      | Some f, Some (XM m v), Some (XInfo path), Some (XFun svc me args) =>
          match f w path (m, v) (fun w' r => call_srv [("req", XM (fst r) (snd r))] w' svc me args) with
          | Some (w', r) => Some (w', e, r)
          | None => None
          end
      | _, _, _, _ => None
      end
  | EErrorf me => Some (w, e, [XE (Some (io_status x me))])
  end.
Fixpoint evals (e : env) (w : W) (l : list rexp) : option (W * env * list rval) :=
  match l with
  | [] => Some (w, e, [])
  | a :: l' =>
      match eval e w a with
      | Some (w', e', r) => match evals e' w' l' with Some (w2, e2, r2) => Some (w2, e2, r ++ r2) | None => None end
      | None => None
      end
  end.

(** A statement: the state and either the variables after it or the values returned. *)
Inductive outcome := Next (w : W) (e : env) | Return (w : W) (r : list rval) | Stuck.
Definition step (e : env) (w : W) (s : rstmt) : outcome :=
  match s with
  | RAlloc n m => let (w', v) := io_alloc x w m in Next w' ((n, XM m v) :: e)
  | RInvoke path =>
      match look e "in", look e "out" with
      | Some (XM mi vi), Some (XM mo vo) =>
          let '(w', (r, v')) := io_invoke x w path (mi, vi) (mo, vo) in Next w' (("err", XE r) :: ("out", XM mo v') :: e)
      | _, _ => Stuck
      end
  | RNewStream desc i path =>
      match nth_error (streams desc) i with
      | Some d => let (w', r) := io_newstream x w d path in Next w' (("err", XE r) :: ("stream", XStream []) :: e)
      | None => Stuck
      end
  | RIfErr => match look e "err" with Some (XE (Some r)) => Return w [XNil; XE (Some r)] | Some (XE None) => Next w e | _ => Stuck end
  | RWrap t => match look e "stream" with Some (XStream _) => Next w (("x", XStream t) :: e) | _ => Stuck end
  | RTry a two =>
      match eval e w a with
      | Some (w', e', [XE (Some r)]) => Return w' (if two then [XNil; XE (Some r)] else [XE (Some r)])
      | Some (w', e', [XE None]) => Next w' e'
      | _ => Stuck
      end
  | RReturn l => match evals e w l with Some (w', _, r) => Return w' r | None => Stuck end
  | RIfPlain a =>
      match io_icpt x with
      | None => match eval e w a with Some (w', _, r) => Return w' r | None => Stuck end
      | Some _ => Next w e
      end
  | RInfo path => Next w (("info", XInfo path) :: e)
  | RHandler (ESrv svc me args) => Next w (("handler", XFun svc me args) :: e)
  | RHandler _ => Stuck
  end.
(** A body, from the variables of its arguments: what it returns. *)
Fixpoint exec (e : env) (w : W) (l : list rstmt) : option unary :=
  match l with
  | [] => None
  | s :: l' => match step e w s with Next w' e' => exec e' w' l' | Return w' r => Some (w', r) | Stuck => None end
  end.

(** The results of Go functions returning (message, error), and error. *)
Definition as_msg (r : rval) : option val := match r with XM _ v => Some v | XNil => Some VNil | _ => None end.
Definition as_err (r : rval) : option (option E) := match r with XE e => Some e | XNil => Some None | _ => None end.
Definition msg_err (r : list rval) : option (val * option E) :=
  match r with [a; b] => match as_msg a, as_err b with Some v, Some e => Some (v, e) | _, _ => None end | _ => None end.
Definition only_err (r : list rval) : option (option E) := match r with [a] => as_err a | _ => None end.
(** Returning (stream object, error). *)
Definition stream_err (r : list rval) : option (option E) :=
  match r with [XStream _; b] => as_err b | [XNil; XE (Some e)] => Some (Some e) | _ => None end.
End Sem.
