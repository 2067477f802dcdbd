(** The code /repo/features/grpc/grpc.go prints, as the syntax of GoRpc.v. *)
From Coq Require Import ZArith List Bool String.
From Verif Require Import Base Schema Value Unmarshal Generator GoSyntax GoRpc.
Import ListNotations.
Open Scope string_scope.
Open Scope Z_scope.
Open Scope list_scope.

(** A method with its input and output messages, and a service (protogen.Method, Service).
    Deprecation options and comments are left out: only comments depend on them. *)
Record rmethod := mkRmethod { rpc : method; rm_in : nat; rm_out : nat }.
Record rservice := mkRservice { rs_full : str; rs_go : str; rs_methods : list rmethod }.
(** The service without message types, as in Generator.v. *)
Definition bare (s : rservice) : service := mkService (rs_full s) (rs_go s) (map rpc (rs_methods s)).
Definition rm_stream (m : rmethod) : bool := streaming (rpc m).

(** grpc.go:422 unexport (the first byte; Go names are not empty, and start with an upper-case
    ASCII letter or 'X'). *)
Definition lower (c : Z) : Z := if (65 <=? c) && (c <=? 90) then c + 32 else c.
Definition unexport (s : str) : str := match s with c :: s' => lower c :: s' | [] => [] end.
(** grpc.go:254 and 357: streamType. *)
Definition clientStreamType (s : rservice) (m : rmethod) : str := unexport (rs_go s) ++ me_goname (rpc m) ++ bytes "Client".
Definition serverStreamType (s : rservice) (m : rmethod) : str := unexport (rs_go s) ++ me_goname (rpc m) ++ bytes "Server".

(** * Bodies *)
(** grpc.go:238-267: the body of the client's method; [index] as given by genService (95-107). *)
Definition gen_client (s : rservice) (m : rmethod) (index : nat) : list rstmt :=
  if negb (me_server (rpc m)) && negb (me_client (rpc m)) then
    [RAlloc "out" (rm_out m); RInvoke (sname (bare s) (rpc m)); RIfErr; RReturn [EVar "out"; ENil]]
  else
    [RNewStream (rs_go s) index (sname (bare s) (rpc m)); RIfErr; RWrap (clientStreamType s m)] ++
    (if negb (me_client (rpc m)) then [RTry (ESendMsg ClientStream "in") true; RTry ECloseSend true] else []) ++
    [RReturn [EVar "x"; ENil]].
(** grpc.go:295-299: the body of the client stream's Send. *)
Definition gen_client_send : list rstmt := [RReturn [ESendMsg ClientStream "m"]].
(** grpc.go:301-308: the body of the client stream's Recv. *)
Definition gen_client_recv (m : rmethod) : list rstmt :=
  [RAlloc "m" (rm_out m); RTry (ERecvMsg ClientStream "m") true; RReturn [EVar "m"; ENil]].
(** grpc.go:310-318: the body of the client stream's CloseAndRecv. *)
Definition gen_close_and_recv (m : rmethod) : list rstmt :=
  [RTry ECloseSend true; RAlloc "m" (rm_out m); RTry (ERecvMsg ClientStream "m") true; RReturn [EVar "m"; ENil]].
(** grpc.go:337-368: the body of the handler. *)
Definition gen_handler (s : rservice) (m : rmethod) : list rstmt :=
  if negb (me_client (rpc m)) && negb (me_server (rpc m)) then
    [RAlloc "in" (rm_in m); RTry (EDec "in") true; RIfPlain (ESrv (rs_go s) (me_goname (rpc m)) [AVar "ctx"; AVar "in"]);
     RInfo (sname (bare s) (rpc m)); RHandler (ESrv (rs_go s) (me_goname (rpc m)) [AVar "ctx"; AAssert "req" (rm_in m)]);
     RReturn [EIntercept]]
  else if negb (me_client (rpc m)) then
    [RAlloc "m" (rm_in m); RTry (ERecvMsg PlainStream "m") false;
     RReturn [ESrv (rs_go s) (me_goname (rpc m)) [AVar "m"; AStream (serverStreamType s m)]]]
  else [RReturn [ESrv (rs_go s) (me_goname (rpc m)) [AStream (serverStreamType s m)]]].
(** grpc.go:394-405: the bodies of the server stream's Send and SendAndClose. *)
Definition gen_server_send : list rstmt := [RReturn [ESendMsg ServerStream "m"]].
(** grpc.go:406-413: the body of the server stream's Recv. *)
Definition gen_server_recv (m : rmethod) : list rstmt :=
  [RAlloc "m" (rm_in m); RTry (ERecvMsg ServerStream "m") true; RReturn [EVar "m"; ENil]].
(** grpc.go:144-153: the body of the method of the Unimplemented server. *)
Definition gen_unimplemented (m : rmethod) : list rstmt :=
  [RReturn ((if negb (me_client (rpc m)) && negb (me_server (rpc m)) then [ENil] else []) ++ [EErrorf (me_goname (rpc m))])].

(** * The file *)
Section Print.
Variable tname : nat -> string.
Variable pool : nat -> bool.
(** The flag require_unimplemented_servers (grpc.go:22). *)
Variable requireUnimplemented : bool.
Let body := print_body tname pool.
Definition cat (l : list string) : string := String.concat "" l.
Definition opt (b : bool) (s : string) : string := if b then s else "".

(** grpc.go:223-237 clientSignature. *)
Definition clientSignature (s : rservice) (m : rmethod) : string :=
  cat [text (me_goname (rpc m)); "(ctxcontext.Context"; opt (negb (me_client (rpc m))) (",in*" ++ tname (rm_in m))%string;
       ",opts...grpc.CallOption)(";
       (if negb (me_client (rpc m)) && negb (me_server (rpc m)) then "*" ++ tname (rm_out m)
        else text (rs_go s) ++ "_" ++ text (me_goname (rpc m)) ++ "Client")%string; ",error)"].
(** grpc.go:321-334 serverSignature. *)
Definition serverSignature (s : rservice) (m : rmethod) : string :=
  let plain_rpc := negb (me_client (rpc m)) && negb (me_server (rpc m)) in
  let args := (if plain_rpc then ["context.Context"] else []) ++
    (if negb (me_client (rpc m)) then ["*" ++ tname (rm_in m)]%string else []) ++
    (if me_client (rpc m) || me_server (rpc m) then [text (rs_go s) ++ "_" ++ text (me_goname (rpc m)) ++ "Server"]%string else []) in
  cat [text (me_goname (rpc m)); "("; String.concat "," args; ")"; if plain_rpc then "(*" ++ tname (rm_out m) ++ ",error)" else "error"]%string.

(** grpc.go:238-319 genClientMethod. *)
Definition genClientMethod (s : rservice) (m : rmethod) (index : nat) : string :=
  let go := text (me_goname (rpc m)) in
  let i := tname (rm_in m) in let o := tname (rm_out m) in
  let st := text (clientStreamType s m) in
  cat (["func(c*"; text (unexport (rs_go s)); "Client)"; clientSignature s m; "{"; body (gen_client s m index); "}"] ++
  if negb (me_server (rpc m)) && negb (me_client (rpc m)) then [] else
    let genSend := me_client (rpc m) in
    let genRecv := me_server (rpc m) in
    let genCloseAndRecv := negb (me_server (rpc m)) in
    ["type"; text (rs_go s); "_"; go; "Clientinterface{";
     opt genSend ("Send(*" ++ i ++ ")error"); opt genRecv ("Recv()(*" ++ o ++ ",error)"); opt genCloseAndRecv ("CloseAndRecv()(*" ++ o ++ ",error)");
     "grpc.ClientStream}";
     "type"; st; "struct{grpc.ClientStream}";
     opt genSend ("func(x*" ++ st ++ ")Send(m*" ++ i ++ ")error{" ++ body gen_client_send ++ "}");
     opt genRecv ("func(x*" ++ st ++ ")Recv()(*" ++ o ++ ",error){" ++ body (gen_client_recv m) ++ "}");
     opt genCloseAndRecv ("func(x*" ++ st ++ ")CloseAndRecv()(*" ++ o ++ ",error){" ++ body (gen_close_and_recv m) ++ "}")]).
(** grpc.go:336-416 genServerMethod. *)
Definition genServerMethod (s : rservice) (m : rmethod) : string :=
  let go := text (me_goname (rpc m)) in
  let i := tname (rm_in m) in let o := tname (rm_out m) in
  let st := text (serverStreamType s m) in
  cat (if negb (me_client (rpc m)) && negb (me_server (rpc m)) then
    ["func"; text (hname (bare s) (rpc m)); "(srvinterface{},ctxcontext.Context,decfunc(interface{})error,interceptorgrpc.UnaryServerInterceptor)(interface{},error){";
     body (gen_handler s m); "}"]
  else
    let genSend := me_server (rpc m) in
    let genSendAndClose := negb (me_server (rpc m)) in
    let genRecv := me_client (rpc m) in
    ["func"; text (hname (bare s) (rpc m)); "(srvinterface{},streamgrpc.ServerStream)error{"; body (gen_handler s m); "}";
     "type"; text (rs_go s); "_"; go; "Serverinterface{";
     opt genSend ("Send(*" ++ o ++ ")error"); opt genSendAndClose ("SendAndClose(*" ++ o ++ ")error"); opt genRecv ("Recv()(*" ++ i ++ ",error)");
     "grpc.ServerStream}";
     "type"; st; "struct{grpc.ServerStream}";
     opt genSend ("func(x*" ++ st ++ ")Send(m*" ++ o ++ ")error{" ++ body gen_server_send ++ "}");
     opt genSendAndClose ("func(x*" ++ st ++ ")SendAndClose(m*" ++ o ++ ")error{" ++ body gen_server_send ++ "}");
     opt genRecv ("func(x*" ++ st ++ ")Recv()(*" ++ i ++ ",error){" ++ body (gen_server_recv m) ++ "}")]).

(** grpc.go:183-220: the descriptor; [path]: file.Desc.Path(). *)
Definition genDesc (path : string) (s : rservice) : string :=
  cat (["var"; text (rs_go s); "_ServiceDesc=grpc.ServiceDesc{ServiceName:"; quoted (rs_full s); ",HandlerType:(*"; text (rs_go s); "Server)(nil),Methods:[]grpc.MethodDesc{"] ++
    map (fun d => "{MethodName:" ++ quoted (fst d) ++ ",Handler:" ++ text (snd d) ++ ",},")%string (Methods (bare s)) ++
    ["},Streams:[]grpc.StreamDesc{"] ++
    map (fun d => "{StreamName:" ++ quoted (sd_name d) ++ ",Handler:" ++ text (sd_handler d) ++ "," ++
                  opt (sd_server d) "ServerStreams:true," ++ opt (sd_client d) "ClientStreams:true," ++ "},")%string (Streams (bare s)) ++
    ["},Metadata:"""; path; """,}"]).

(** grpc.go:55-221 genService, without comments. *)
Definition genService (path : string) (s : rservice) : string :=
  let go := text (rs_go s) in
  let must := opt requireUnimplemented ("mustEmbedUnimplemented" ++ go ++ "Server()")%string in
  cat ([("type" ++ go ++ "Clientinterface{")%string] ++ map (clientSignature s) (rs_methods s) ++
   ["}type"; text (unexport (rs_go s ++ bytes "Client")); "struct{ccgrpc.ClientConnInterface}";
    "funcNew"; go; "Client(ccgrpc.ClientConnInterface)"; go; "Client{return&"; text (unexport (rs_go s ++ bytes "Client")); "{cc}}"] ++
   map (fun mi => genClientMethod s (fst mi) (snd mi)) (combine (rs_methods s) (client_indices (map rpc (rs_methods s)) 0 0)) ++
   ["type"; go; "Serverinterface{"] ++ map (serverSignature s) (rs_methods s) ++ [must; "}type"; "Unimplemented"; go; "Serverstruct{}"] ++
   map (fun m => "func(Unimplemented" ++ go ++ "Server)" ++ serverSignature s m ++ "{" ++ body (gen_unimplemented m) ++ "}")%string (rs_methods s) ++
   [opt requireUnimplemented ("func(Unimplemented" ++ go ++ "Server)mustEmbedUnimplemented" ++ go ++ "Server(){}");
    "typeUnsafe"; go; "Serverinterface{mustEmbedUnimplemented"; go; "Server()}";
    "funcRegister"; go; "Server(sgrpc.ServiceRegistrar,srv"; go; "Server){s.RegisterService(&"; go; "_ServiceDesc,srv)}"] ++
   map (genServerMethod s) (rs_methods s) ++ [genDesc path s]).
(** grpc.go:40-53 generateFileContent. *)
Definition genFile (path : string) (l : list rservice) : string :=
  match l with [] => "" | _ => "const_=grpc.SupportPackageIsVersion7" ++ cat (map (genService path) l) end%string.
End Print.
