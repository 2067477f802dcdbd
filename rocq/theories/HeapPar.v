(** Goroutines that share the pools: each has messages and buffers of its own (HeapHist.v),
    the scheduler runs one operation after the other.  That an operation is atomic is a
    simplification: between two operations of one goroutine any others may run, but not
    during one.  (In Go, sync.Pool's Get and Put are atomic, and the rest of an operation
    touches its own message, objects it took from a pool, and new ones:
    [C57_untouched].) *)
From Coq Require Import ZArith List Bool.
From Verif Require Import Base Schema Value Heap HeapDec HeapHist.
From Verif Require Unmarshal.
Import ListNotations.
Open Scope Z_scope.

(** What happens: goroutine [t] runs an operation; it hands its [i]-th message or its
    [k]-th buffer to goroutine [u], through a channel, say, and does not use it any more.
    (Go code that uses the generated functions; there is no counterpart in /repo.) *)
Inductive event : Type :=
| Act (t : nat) (o : op)
| Send (t i u : nat)
| SendBuffer (t k u : nat).

(** * On memory with pools *)
(** The messages (type and address) and buffers of a goroutine. *)
Record view : Type := View { v_msgs : list (nat * nat); v_bufs : list nat }.
Record system : Type := System { y_mem : mem; y_views : list view }.
Section Par.
Variable sc : schema.
Variable grow : nat -> nat.
Variables uunm uext : nat -> nat -> list Z -> list obj -> bool * list obj.
Variable uclone : nat -> hval -> list obj -> option (hval * list obj).
(** One event: the error of the operation if any, and the new state; [None]: a panic.
    What names a goroutine, message or buffer that does not exist does nothing. *)
Definition hevent (ev : event) (y : system) : option (option err * system) :=
  match ev with
  | Act t o =>
      match nth_error (y_views y) t with
      | Some v =>
          match hstep sc grow uunm uext uclone o (World (y_mem y) (v_msgs v) (v_bufs v)) with
          | Some (e, w) => Some (e, System (w_mem w) (Unmarshal.list_set (y_views y) t (View (w_msgs w) (w_bufs w))))
          | None => None
          end
      | None => Some (None, y)
      end
  | Send t i u =>
      match nth_error (y_views y) t, nth_error (y_views y) u with
      | Some v, Some _ =>
          match nth_error (v_msgs v) i with
          | Some x =>
              let vs := Unmarshal.list_set (y_views y) t (View (without i (v_msgs v)) (v_bufs v)) in
              match nth_error vs u with
              | Some v' => Some (None, System (y_mem y) (Unmarshal.list_set vs u (View (v_msgs v' ++ [x]) (v_bufs v'))))
              | None => Some (None, y)
              end
          | None => Some (None, y)
          end
      | _, _ => Some (None, y)
      end
  | SendBuffer t k u =>
      match nth_error (y_views y) t, nth_error (y_views y) u with
      | Some v, Some _ =>
          match nth_error (v_bufs v) k with
          | Some x =>
              let vs := Unmarshal.list_set (y_views y) t (View (v_msgs v) (without k (v_bufs v))) in
              match nth_error vs u with
              | Some v' => Some (None, System (y_mem y) (Unmarshal.list_set vs u (View (v_msgs v') (v_bufs v' ++ [x]))))
              | None => Some (None, y)
              end
          | None => Some (None, y)
          end
      | _, _ => Some (None, y)
      end
  end.
Fixpoint hevents (evs : list event) (y : system) : option (list (option err) * system) :=
  match evs with
  | [] => Some ([], y)
  | ev :: evs => match hevent ev y with
                 | Some (e, y') => match hevents evs y' with Some (es, y'') => Some (e :: es, y'') | None => None end
                 | None => None
                 end
  end.
End Par.

(** * On trees, without pools *)
Section PlainPar.
Variable sc : schema.
(** The state: what each goroutine has. *)
Definition pevent (ev : event) (q : list desk) : option err * list desk :=
  match ev with
  | Act t o =>
      match nth_error q t with
      | Some d => let (e, d') := pstep sc o d in (e, Unmarshal.list_set q t d')
      | None => (None, q)
      end
  | Send t i u =>
      match nth_error q t, nth_error q u with
      | Some d, Some _ =>
          match nth_error (d_msgs d) i with
          | Some x =>
              let ds := Unmarshal.list_set q t (Desk (without i (d_msgs d)) (d_bufs d)) in
              match nth_error ds u with
              | Some d' => (None, Unmarshal.list_set ds u (Desk (d_msgs d' ++ [x]) (d_bufs d')))
              | None => (None, q)
              end
          | None => (None, q)
          end
      | _, _ => (None, q)
      end
  | SendBuffer t k u =>
      match nth_error q t, nth_error q u with
      | Some d, Some _ =>
          match nth_error (d_bufs d) k with
          | Some x =>
              let ds := Unmarshal.list_set q t (Desk (d_msgs d) (without k (d_bufs d))) in
              match nth_error ds u with
              | Some d' => (None, Unmarshal.list_set ds u (Desk (d_msgs d') (d_bufs d' ++ [x])))
              | None => (None, q)
              end
          | None => (None, q)
          end
      | _, _ => (None, q)
      end
  end.
Fixpoint pevents (evs : list event) (q : list desk) : list (option err) * list desk :=
  match evs with
  | [] => ([], q)
  | ev :: evs => let (e, q') := pevent ev q in let (es, q'') := pevents evs q' in (e :: es, q'')
  end.
End PlainPar.

(** What goroutine [t] does in a run, and the results it sees. *)
Definition acts (t : nat) (evs : list event) : list op :=
  flat_map (fun ev => match ev with Act t' o => if Nat.eqb t' t then [o] else [] | _ => [] end) evs.
Fixpoint sees (t : nat) (evs : list event) (es : list (option err)) : list (option err) :=
  match evs, es with
  | Act t' _ :: evs, e :: es => if Nat.eqb t' t then e :: sees t evs es else sees t evs es
  | _ :: evs, _ :: es => sees t evs es
  | _, _ => []
  end.
Definition event_ok (sc : schema) (ev : event) : Prop := match ev with Act _ o => op_ok sc o | _ => True end.
(** Nothing is handed over. *)
Definition is_act (ev : event) : Prop := match ev with Act _ _ => True | _ => False end.
