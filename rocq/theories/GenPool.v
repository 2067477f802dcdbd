(** The code /repo/features/pool/pool.go prints, as the syntax of GoPool.v. *)
From Coq Require Import ZArith List Bool String.
From Verif Require Import Base Schema Value Unmarshal Pool GoSyntax GoPool.
Import ListNotations.
Open Scope string_scope.
Open Scope Z_scope.
Open Scope list_scope.

(** [pool]: p.ShouldPool of a message type (generatedfile.go:27-42). *)
Section Gen.
Variable pool : nat -> bool.

(** pool.go:56-87: the statements for one field, [i] slices having been saved so far, and
    whether it is saved. *)
Definition gen_reset_field (i : nat) (f : fdesc) : list pstmt * bool :=
  let s := f_slot f in
  match f_ty f with
  | TMap _ _ => ([], false)
  | TField (LRepeated _) k =>
      ((match classify k with
        | CMsg m' | CGrp m' => [PRange s (PCall PElem m' (if pool m' then HResetVT else HReset))]
        | CByt | CStr => [PClear s]
        | _ => []
        end) ++ [PSave i s], true)
  | TField LOneof k =>
      match classify k with
      | CMsg m' | CGrp m' => (if pool m' then [PIfOneof s (f_num f) (PCall (PIn s (f_num f)) m' HReturn)] else [], false)
      | _ => ([], false)
      end
  | TField _ k =>
      match classify k with
      | CMsg m' | CGrp m' => (if pool m' then [PCall (PField s) m' HReturn] else [], false)
      | CByt => ([PSave i s], true)
      | _ => ([], false)
      end
  end.

(** pool.go:53-88: the loop over the fields; the saved members with their variables. *)
Fixpoint gen_reset_fields (i : nat) (fs : list fdesc) : list pstmt * list (nat * nat) :=
  match fs with
  | [] => ([], [])
  | f :: fs' =>
      let (p, s) := gen_reset_field i f in
      let (p', l) := gen_reset_fields (if s then S i else i) fs' in
      (p ++ p', if s then (f_slot f, i) :: l else l)
  end.

(** pool.go:50-95: the body of ResetVT of message [m]. *)
Definition gen_reset (m : nat) (md : mdesc) : pstmt :=
  let (p, l) := gen_reset_fields 0 (md_fields md) in
  PIfSome (pblock (p ++ [PCall PM m HReset] ++ map (fun e => PRestore (fst e) (snd e)) l)).

(** pool.go:97-102: the body of ReturnToVTPool. *)
Definition gen_return (m : nat) : pstmt := PIfSome (pblock [PCall PM m HResetVT; PPut]).

(** pool.go:44-106: the text of the variable, the methods and the function printed for a message
    called [self]; pool.go:37: nothing for messages without pool. *)
Definition print_pool (nm : names) (self : string) (m : nat) (md : mdesc) : string :=
  if md_pool md then
    ("varvtprotoPool_" ++ self ++ "=sync.Pool{New:func()interface{}{return&" ++ self ++ "{}},}"
     ++ "func(m*" ++ self ++ ")ResetVT(){" ++ print_pstmt nm self (gen_reset m md) ++ "}"
     ++ "func(m*" ++ self ++ ")ReturnToVTPool(){" ++ print_pstmt nm self (gen_return m) ++ "}"
     ++ "func" ++ self ++ "FromVTPool()*" ++ self ++ "{returnvtprotoPool_" ++ self ++ ".Get().(*" ++ self ++ ")}")%string
  else "".
End Gen.

(** Running the methods.  [n]: bound on the depth of calls.  Only messages with a pool have
    them. *)
Definition shouldpool (sc : schema) (m : nat) : bool := md_pool (md_of sc m).
Definition pstart (v : val) : pstate_go := mkP v VNil [] [].
Definition run_return (sc : schema) (reset : nat -> val -> res unit (val * puts)) (m : nat) (v : val) : res unit (val * puts) :=
  if shouldpool sc m then
    do st <- pexec sc m reset (fun _ _ => Panic) (gen_return m) (pstart v); Ok (q_m st, q_puts st)
  else Panic.
Fixpoint run_ResetVT (sc : schema) (n : nat) (m : nat) (v : val) : res unit (val * puts) :=
  match n with
  | O => NoFuel
  | S n' =>
      if shouldpool sc m then
        do st <- pexec sc m (run_ResetVT sc n') (run_return sc (run_ResetVT sc n')) (gen_reset (shouldpool sc) m (md_of sc m)) (pstart v);
        Ok (q_m st, q_puts st)
      else Panic
  end.
Definition run_ReturnToVTPool (sc : schema) (n : nat) : nat -> val -> res unit (val * puts) := run_return sc (run_ResetVT sc n).
(** FromVTPool (pool.go:44-48,104-106) is one call of the Get method of sync.Pool: an object of the
    pool, or what New returns ([drawn] in PoolSpec.v). *)
