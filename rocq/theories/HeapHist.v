(** Programs that use messages with pools: a list of operations, run on memory with
    pools (the generated code of HeapDec.v) and on plain trees without pools. *)
From Coq Require Import ZArith List Bool.
From Verif Require Import Base Schema Value Typing RecordSpec Clone Heap HeapDec.
From Verif Require Unmarshal.
Import ListNotations.
Open Scope Z_scope.

(** The operations.  Messages and buffers are named by their position in the lists of
    those the program holds.  (Go code that uses the generated functions; there is no
    counterpart in /repo.) *)
Inductive op : Type :=
(** FromVTPool of message type [m] (/repo/features/pool/pool.go:104-106). *)
| OGet (m : nat)
(** [&T{}]. *)
| ONew (m : nat)
(** Make a byte slice; overwrite one (the new bytes have the same length). *)
| OBuffer (bs : list Z)
| OWrite (k : nat) (bs : list Z)
(** [x.UnmarshalVT(buf[off:off+len])]; a failed call keeps [x]. *)
| OUnmarshal (i k off len : nat)
(** Assign the number or string [x] to the member of field number [n] (append it to the
    member if that is a list). *)
| OSet (i : nat) (n : Z) (x : val)
(** ResetVT; ReturnToVTPool, after which the program does not use the message. *)
| OReset (i : nat)
| OReturn (i : nat)
(** The program drops a message without returning it. *)
| OForget (i : nat)
(** sync.Pool drops the [k]-th of the objects it has. *)
| OLose (k : nat)
(** [x.CloneVT()] (/repo/features/clone/clone.go:154-170), which the program keeps. *)
| OClone (i : nat).

Definition without {A} (i : nat) (l : list A) : list A := firstn i l ++ skipn (S i) l.
(** [buf[off:off+len]]. *)
Definition cut {A} (off len : nat) (l : list A) : option (list A) :=
  if Nat.leb (off + len) (length l) then Some (firstn len (skipn off l)) else None.
(** The declared field of number [n] if [x] is a number or string of its kind. *)
Definition fits (k : kind) (x : val) : bool :=
  match x with VInt z => is_num k && in_range k z | VStr s => match k with KString => bytes_ok s | _ => false end | _ => false end.
Definition member (sc : schema) (m : nat) (n : Z) (x : val) : option (fdesc * label * kind) :=
  match find (fun f => f_num f =? n) (md_fields (md_of sc m)) with
  | Some f => match f_ty f with TField lbl k => if fits k x then Some (f, lbl, k) else None | _ => None end
  | None => None
  end.

(** * On memory *)
(** The memory with the pools, the messages held (type and address), the buffers. *)
Record world : Type := World { w_mem : mem; w_msgs : list (nat * nat); w_bufs : list nat }.
Definition hleaf (x : val) : hval := match x with VInt z => HInt z | VStr s => HStr s | _ => HNil end.

Section Run.
Variable sc : schema.
Variable grow : nat -> nat.
Variables uunm uext : nat -> nat -> list Z -> list obj -> bool * list obj.
Variable uclone : nat -> hval -> list obj -> option (hval * list obj).

(** One operation: an error it returned if any, and the new state; [None]: a panic (or
    outside the model).  Operations on messages or buffers the program does not have do
    nothing, likewise ResetVT and ReturnToVTPool on types without pool (which do not have
    those methods).  The recursions of ResetVT and CloneVT need at most as many levels as
    there are objects. *)
Definition levels (s : mem) : nat := S (S (length (heap s))).
Definition hstep (o : op) (w : world) : option (option err * world) :=
  let s := w_mem w in
  match o with
  | OGet m => match acc (Alloc sc m) s with Done a s' => Some (None, World s' (w_msgs w ++ [(m, a)]) (w_bufs w)) | _ => None end
  | ONew m => match acc (alloc (new_obj (md_of sc m))) s with Done a s' => Some (None, World s' (w_msgs w ++ [(m, a)]) (w_bufs w)) | _ => None end
  | OBuffer bs => match acc (alloc (OBytes bs)) s with Done a s' => Some (None, World s' (w_msgs w) (w_bufs w ++ [a])) | _ => None end
  | OWrite k bs =>
      match nth_error (w_bufs w) k with
      | Some a =>
          match acc (bind (load a) (fun o => match o with OBytes old => if Nat.eqb (length bs) (length old) then Heap.store a (OBytes bs) else ret tt | _ => fail end)) s with
          | Done _ s' => Some (None, World s' (w_msgs w) (w_bufs w))
          | _ => None
          end
      | None => Some (None, w)
      end
  | OUnmarshal i k off len =>
      match nth_error (w_msgs w) i, nth_error (w_bufs w) k with
      | Some (m, a), Some b =>
          match acc (load b) s with
          | Done (OBytes bs) _ =>
              if Nat.leb (off + len) (length bs) then
                match hUnmarshal sc false grow uunm uext m (mkIn b off len (length bs - off)) (HPtr a) s with
                | Done _ s' => Some (None, World s' (w_msgs w) (w_bufs w))
                | Fail e s' => Some (Some e, World s' (w_msgs w) (w_bufs w))
                | _ => None
                end
              else Some (None, w)
          | _ => None
          end
      | _, _ => Some (None, w)
      end
  | OSet i n x =>
      match nth_error (w_msgs w) i with
      | Some (m, a) =>
          match member sc m n x with
          | Some (f, lbl, _) =>
              match hstore grow f lbl (hleaf x) (HPtr a) s with Done _ s' => Some (None, World s' (w_msgs w) (w_bufs w)) | _ => None end
          | None => Some (None, w)
          end
      | None => Some (None, w)
      end
  | OReset i =>
      match nth_error (w_msgs w) i with
      | Some (m, a) =>
          if md_pool (md_of sc m) then
            match hreset_msg sc (levels s) m (HPtr a) s with Done _ s' => Some (None, World s' (w_msgs w) (w_bufs w)) | _ => None end
          else Some (None, w)
      | None => Some (None, w)
      end
  | OReturn i =>
      match nth_error (w_msgs w) i with
      | Some (m, a) =>
          if md_pool (md_of sc m) then
            match hReturnToVTPool sc (levels s) m (HPtr a) s with Done _ s' => Some (None, World s' (without i (w_msgs w)) (w_bufs w)) | _ => None end
          else Some (None, w)
      | None => Some (None, w)
      end
  | OForget i => Some (None, World s (without i (w_msgs w)) (w_bufs w))
  | OClone i =>
      match nth_error (w_msgs w) i with
      | Some (m, a) =>
          match hclone_msg sc uclone (levels s) m (HPtr a) s with Some (HPtr r, s') => Some (None, World s' (w_msgs w ++ [(m, r)]) (w_bufs w)) | _ => None end
      | None => Some (None, w)
      end
  | OLose k => Some (None, World (mkMem (heap s) (without k (free s)) (picks s)) (w_msgs w) (w_bufs w))
  end.
Fixpoint hrun (os : list op) (w : world) : option (list (option err) * world) :=
  match os with
  | [] => Some ([], w)
  | o :: os => match hstep o w with
               | Some (e, w') => match hrun os w' with Some (es, w'') => Some (e :: es, w'') | None => None end
               | None => None
               end
  end.
End Run.

(** * On trees, without pools *)
(** The messages held (type and value), the contents of the buffers. *)
Record desk : Type := Desk { d_msgs : list (nat * val); d_bufs : list (list Z) }.
Section Plain.
Variable sc : schema.
Definition pstep (o : op) (w : desk) : option err * desk :=
  match o with
  | OGet m | ONew m => (None, Desk (d_msgs w ++ [(m, new_msg (md_of sc m))]) (d_bufs w))
  | OBuffer bs => (None, Desk (d_msgs w) (d_bufs w ++ [bs]))
  | OWrite k bs =>
      match nth_error (d_bufs w) k with
      | Some old => if Nat.eqb (length bs) (length old) then (None, Desk (d_msgs w) (Unmarshal.list_set (d_bufs w) k bs)) else (None, w)
      | None => (None, w)
      end
  | OUnmarshal i k off len =>
      match nth_error (d_msgs w) i, nth_error (d_bufs w) k with
      | Some (m, v), Some bs =>
          match cut off len bs with
          | Some d =>
              match Unmarshal.UnmarshalVT sc m d v with
              | Ok v' => (None, Desk (Unmarshal.list_set (d_msgs w) i (m, v')) (d_bufs w))
              | Err e v' => (Some e, Desk (Unmarshal.list_set (d_msgs w) i (m, v')) (d_bufs w))
              | _ => (None, w)
              end
          | None => (None, w)
          end
      | _, _ => (None, w)
      end
  | OSet i n x =>
      match nth_error (d_msgs w) i with
      | Some (m, v) =>
          match member sc m n x with
          | Some (f, lbl, k) => match Unmarshal.store f lbl k x v with Some v' => (None, Desk (Unmarshal.list_set (d_msgs w) i (m, v')) (d_bufs w)) | None => (None, w) end
          | None => (None, w)
          end
      | None => (None, w)
      end
  | OReset i =>
      match nth_error (d_msgs w) i with
      | Some (m, v) => if md_pool (md_of sc m) then (None, Desk (Unmarshal.list_set (d_msgs w) i (m, new_msg (md_of sc m))) (d_bufs w)) else (None, w)
      | None => (None, w)
      end
  | OReturn i =>
      match nth_error (d_msgs w) i with
      | Some (m, v) => if md_pool (md_of sc m) then (None, Desk (without i (d_msgs w)) (d_bufs w)) else (None, w)
      | None => (None, w)
      end
  | OForget i => (None, Desk (without i (d_msgs w)) (d_bufs w))
  | OLose _ => (None, w)
  | OClone i =>
      match nth_error (d_msgs w) i with
      | Some (m, v) => (None, Desk (d_msgs w ++ [(m, CloneVT sc m v)]) (d_bufs w))
      | None => (None, w)
      end
  end.
Fixpoint prun (os : list op) (w : desk) : list (option err) * desk :=
  match os with
  | [] => ([], w)
  | o :: os => let (e, w') := pstep o w in let (es, w'') := prun os w' in (e :: es, w'')
  end.
End Plain.

(** The message an operation is about, the buffer it writes to. *)
Definition about (o : op) : option nat :=
  match o with OUnmarshal i _ _ _ | OSet i _ _ | OReset i | OReturn i | OForget i => Some i | _ => None end.
Definition writes (o : op) : option nat := match o with OWrite k _ => Some k | _ => None end.

(** Operations the program may contain: messages of types with generated code (FromVTPool:
    with a pool), byte slices of bytes and of a length that fits the address space. *)
Definition op_ok (sc : schema) (o : op) : Prop :=
  match o with
  | OGet m => md_pool (md_of sc m) = true
  | ONew m => md_foreign (md_of sc m) = false
  | OBuffer bs | OWrite _ bs => bytes_ok bs = true /\ small bs
  | _ => True
  end.
