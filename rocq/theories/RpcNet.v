(** google.golang.org/grpc (outside /repo), as far as the generated stubs need it: a connection
    that finds the handler of a path, carries requests and responses through the codec of
    /repo/codec/grpc, and carries the messages of a stream in order. *)
From Coq Require Import ZArith List Bool String.
From Verif Require Import Base Schema Value Marshal Unmarshal Pool Generator GoSyntax GoRpc GenRpc.
Import ListNotations.
Open Scope string_scope.
Open Scope Z_scope.
Open Scope list_scope.

Section Net.
Variable sc : schema.
(** The state of everything outside the stubs (the program implementing the services, the pools),
    and error values. *)
Variables W E : Type.
(** What new(T) or TFromVTPool() gives, and what UnmarshalVT draws for the messages inside. *)
Variable al : W -> nat -> W * val.
Variable nested : W -> list Z -> nat -> val.
(** The program's implementation of the services: Go names of service and method, the message
    arguments, and whether it gets a stream. *)
Variable impl : W -> str -> str -> list (nat * val) -> bool -> W * list (rval E).
Variable icpt : option (W -> str -> nat * val -> (W -> nat * val -> option (W * list (rval E))) -> option (W * list (rval E))).
(** The error values for errors of the codec, an unknown path, the end of a stream, and
    status.Errorf. *)
Variable of_err : err -> E.
Variables unknown_path ended crashed : E.
Variable status : str -> E.
(** The registered services. *)
Variable svcs : list rservice.

(** codec/grpc/grpc_codec.go:15-21: what is sent for a message. *)
Definition encode (d : dyn) : E + list Z :=
  match grpc_Marshal sc d with
  | Ok (Some bs) => inr bs
  | Ok None => inr []
  | Err e _ => inl (of_err e)
  | _ => inl crashed
  end.
(** codec/grpc/grpc_codec.go:23-29: decoding into a message; the error and the message after it. *)
Definition decode (w : W) (data : list Z) (d : nat * val) : option E * val :=
  match UnmarshalVT_pool sc (nested w) (fst d) data (snd d) with
  | Ok v => (None, v)
  | Err e v => (Some (of_err e), v)
  | _ => (Some crashed, snd d)
  end.

(** The service and method whose handler the path leads to. *)
Fixpoint find_rpc (l : list rservice) (path : str) : option (rservice * rmethod) :=
  match l with
  | [] => None
  | s :: l' =>
      match serve (bare s) path with
      | Some g => match find (fun m => str_eqb (me_goname (rpc m)) g) (rs_methods s) with Some m => Some (s, m) | None => None end
      | None => find_rpc l' path
      end
  end.
(** The Streams of the printed descriptors. *)
Definition streams_of (g : str) : list sdesc :=
  match find (fun s => str_eqb (rs_go s) g) svcs with Some s => Streams (bare s) | None => [] end.

(** * Unary calls *)
Definition no_invoke (w : W) (p : str) (a b : nat * val) : W * (option E * val) := (w, (Some crashed, snd b)).
Definition no_stream (w : W) (d : sdesc) (p : str) : W * option E := (w, Some crashed).
Definition no_send (w : W) (a : nat * val) : W * option E := (w, Some crashed).
Definition no_close (w : W) : W * option E := (w, Some crashed).
Definition no_recv (w : W) (a : nat * val) : W * (option E * val) := (w, (Some crashed, snd a)).
(** The surroundings of a handler serving the request [data]. *)
Definition server_io (data : list Z) : io W E :=
  mkIo W E al no_invoke no_stream no_send no_close no_recv (fun w d => (w, decode w data d)) impl icpt status.
(** Serving a request: the reply's bytes or the error. *)
Definition serve_unary (w : W) (path : str) (data : list Z) : W * (E + list Z) :=
  match find_rpc svcs path with
  | None => (w, inl unknown_path)
  | Some (s, m) =>
      match exec W E (server_io data) streams_of [] w (gen_handler s m) with
      | None => (w, inl crashed)
      | Some (w', r) =>
          match msg_err E r, r with
          | Some (_, Some e), _ => (w', inl e)
          | Some (_, None), XM _ t v :: _ => (w', encode (Helped t v))
          | Some (_, None), _ => (w', encode (Other []))
          | None, _ => (w', inl crashed)
          end
      end
  end.
(** ClientConn.Invoke: the request is sent, the reply decoded into [out]. *)
Definition invoke (w : W) (path : str) (req out : nat * val) : W * (option E * val) :=
  match encode (Helped (fst req) (snd req)) with
  | inl e => (w, (Some e, snd out))
  | inr data =>
      match serve_unary w path data with
      | (w', inl e) => (w', (Some e, snd out))
      | (w', inr reply) => (w', decode w' reply out)
      end
  end.
Definition client_io : io W E := mkIo W E al invoke no_stream no_send no_close no_recv no_recv impl None status.
(** A call of the generated client's method: what it returns; [None] is a panic. *)
Definition call_unary (w : W) (s : rservice) (m : rmethod) (index : nat) (req : val) : option (W * option (val * option E)) :=
  match exec W E client_io streams_of [("in", XM E (rm_in m) req)] w (gen_client s m index) with
  | Some (w', r) => Some (w', msg_err E r)
  | None => None
  end.

(** * Streams *)
(** The messages under way in both directions, and whether the client has closed its side. *)
Record pipe := mkPipe { up : list (list Z); down : list (list Z); closed : bool; opened : option (sdesc * str) }.
Definition lift {A} (f : W -> A -> W * val) (w : W * pipe) (a : A) : (W * pipe) * val := let (w', v) := f (fst w) a in ((w', snd w), v).
(** RecvMsg on a stream with nothing under way waits or, if nothing more comes, returns io.EOF or
    the status; the model returns an error. *)
Definition take (w : W) (d : nat * val) (q : list (list Z)) : (option E * val) * list (list Z) :=
  match q with [] => ((Some ended, snd d), []) | b :: q' => (decode w b d, q') end.
Definition client_stream_io : io (W * pipe) E :=
  mkIo (W * pipe) E (lift al)
    (fun w _ _ b => (w, (Some crashed, snd b)))
    (fun w d p => ((fst w, mkPipe [] [] false (Some (d, p))), None))
    (fun w d => match encode (Helped (fst d) (snd d)) with
                | inl e => (w, Some e)
                | inr b => if closed (snd w) then (w, Some crashed) else ((fst w, mkPipe (up (snd w) ++ [b]) (down (snd w)) (closed (snd w)) (opened (snd w))), None)
                end)
    (fun w => ((fst w, mkPipe (up (snd w)) (down (snd w)) true (opened (snd w))), None))
    (fun w d => let (r, q) := take (fst w) d (down (snd w)) in ((fst w, mkPipe (up (snd w)) q (closed (snd w)) (opened (snd w))), r))
    (fun w d => (w, (Some crashed, snd d)))
    (fun w _ _ _ _ => (w, [])) None status.
Definition server_stream_io : io (W * pipe) E :=
  mkIo (W * pipe) E (lift al)
    (fun w _ _ b => (w, (Some crashed, snd b)))
    (fun w _ _ => (w, Some crashed))
    (fun w d => match encode (Helped (fst d) (snd d)) with
                | inl e => (w, Some e)
                | inr b => ((fst w, mkPipe (up (snd w)) (down (snd w) ++ [b]) (closed (snd w)) (opened (snd w))), None)
                end)
    (fun w => (w, Some crashed))
    (fun w d => let (r, q) := take (fst w) d (up (snd w)) in ((fst w, mkPipe q (down (snd w)) (closed (snd w)) (opened (snd w))), r))
    (fun w d => (w, (Some crashed, snd d)))
    (fun w s m a b => let (w', r) := impl (fst w) s m a b in ((w', snd w), r)) None status.
(** What the two programs do with a stream of method [m], through the printed code. *)
Inductive sevent :=
| CSend (v : val)      (* the client calls Send *)
| CRecv                (* the client calls Recv *)
| CCloseAndRecv        (* the client calls CloseAndRecv *)
| SSend (v : val)      (* the server's method calls Send or SendAndClose *)
| SRecv                (* the server's method calls Recv *)
| Rest (f : W -> W).   (* the rest of the programs runs *)
(** What has been sent without error and received so far, in order. *)
Record slog := mkLog { sent_up : list val; got_up : list val; sent_down : list val; got_down : list val }.
Definition run_event (m : rmethod) (st : (W * pipe) * slog) (ev : sevent) : (W * pipe) * slog :=
  let '(w, l) := st in
  match ev with
  | CSend v =>
      match exec _ E client_stream_io streams_of [("m", XM E (rm_in m) v)] w gen_client_send with
      | Some (w', r) => match only_err E r with Some None => (w', mkLog (sent_up l ++ [v]) (got_up l) (sent_down l) (got_down l)) | _ => (w', l) end
      | None => (w, l)
      end
  | CRecv | CCloseAndRecv =>
      match exec _ E client_stream_io streams_of [] w (match ev with CRecv => gen_client_recv m | _ => gen_close_and_recv m end) with
      | Some (w', r) => match msg_err E r with Some (v, None) => (w', mkLog (sent_up l) (got_up l) (sent_down l) (got_down l ++ [v])) | _ => (w', l) end
      | None => (w, l)
      end
  | SSend v =>
      match exec _ E server_stream_io streams_of [("m", XM E (rm_out m) v)] w gen_server_send with
      | Some (w', r) => match only_err E r with Some None => (w', mkLog (sent_up l) (got_up l) (sent_down l ++ [v]) (got_down l)) | _ => (w', l) end
      | None => (w, l)
      end
  | SRecv =>
      match exec _ E server_stream_io streams_of [] w (gen_server_recv m) with
      | Some (w', r) => match msg_err E r with Some (v, None) => (w', mkLog (sent_up l) (got_up l ++ [v]) (sent_down l) (got_down l)) | _ => (w', l) end
      | None => (w, l)
      end
  | Rest f => ((f (fst w), snd w), l)
  end.
Definition run_stream (m : rmethod) (w : W * pipe) (evs : list sevent) : (W * pipe) * slog :=
  fold_left (run_event m) evs (w, mkLog [] [] [] []).
End Net.
