(** The static rules of Go for the printed RPC stubs: types, declarations and their text, and which
    functions the compiler accepts.  A specification of the compiler, not a file of /repo. *)
From Coq Require Import ZArith List Bool String Arith.
From Verif Require Import Base Schema Value Unmarshal Generator GoSyntax GoRpc.
Import ListNotations.
Open Scope string_scope.
Open Scope Z_scope.
Open Scope list_scope.

Inductive rty :=
| GMsg (m : nat)          (* a pointer to a message *)
| GErr | GCtx | GOpts | GAny | GDec | GIcpt | GInfo | GHandler
| GStream (server : bool) (* grpc.ServerStream, grpc.ClientStream *)
| GConn                   (* grpc.ClientConnInterface *)
| GNamed (n : str)        (* an interface type with this name *)
| GPtr (n : str)          (* a pointer to the struct type with this name *)
| GNil.
Definition str_eqb (a b : str) : bool := if list_eq_dec Z.eq_dec a b then true else false.
Definition rty_eqb (a b : rty) : bool :=
  match a, b with
  | GMsg m, GMsg n => Nat.eqb m n
  | GErr, GErr | GCtx, GCtx | GOpts, GOpts | GAny, GAny | GDec, GDec | GIcpt, GIcpt | GInfo, GInfo | GHandler, GHandler | GConn, GConn => true
  | GStream a, GStream b => Bool.eqb a b
  | GNamed a, GNamed b | GPtr a, GPtr b => str_eqb a b
  | _, _ => false
  end.

(** Parameters and results of a method. *)
Definition rsig := (list rty * list rty)%type.
Definition sig_eqb (a b : rsig) : bool :=
  let eq l r := Nat.eqb (List.length l) (List.length r) && forallb (fun p => rty_eqb (fst p) (snd p)) (combine l r) in
  eq (fst a) (fst b) && eq (snd a) (snd b).

(** Declarations: an interface with its methods and the interface it embeds, a struct that embeds an
    interface, a function or method (receiver: variable and type). *)
Record rfunc := mkFn { fn_recv : option (string * str); fn_name : str; fn_params : list (string * rty); fn_results : list rty; fn_body : list rstmt }.
Definition fn_sig (f : rfunc) : rsig := (map snd (fn_params f), fn_results f).
Inductive rdecl :=
| DIface (n : str) (ms : list (str * rsig)) (emb : rty)
| DStruct (n : str) (emb : rty)
| DFunc (f : rfunc).

(** What is declared in the package. *)
Record renv := mkEnv {
  e_iface : str -> option (list (str * rsig) * rty);
  e_struct : str -> option rty;
  e_method : str -> str -> option rsig;
  e_desc : str -> bool          (* the variable S_ServiceDesc *)
}.
Definition declares (D : renv) (d : rdecl) : Prop :=
  match d with
  | DIface n ms emb => e_iface D n = Some (ms, emb)
  | DStruct n emb => e_struct D n = Some emb
  | DFunc f => match fn_recv f with Some (_, t) => e_method D t (fn_name f) = Some (fn_sig f) | None => True end
  end.

(** * Text, without white space *)
Section Text.
Variable tname : nat -> string.
Variable pool : nat -> bool.
Definition print_rty (t : rty) : string :=
  match t with
  | GMsg m => "*" ++ tname m
  | GErr => "error" | GCtx => "context.Context" | GOpts => "...grpc.CallOption" | GAny => "interface{}"
  | GDec => "func(interface{})error" | GIcpt => "grpc.UnaryServerInterceptor" | GInfo => "*grpc.UnaryServerInfo" | GHandler => "grpc.UnaryHandler"
  | GStream s => if s then "grpc.ServerStream" else "grpc.ClientStream"
  | GConn => "grpc.ClientConnInterface"
  | GNamed n => text n | GPtr n => "*" ++ text n | GNil => "nil"
  end%string.
Definition print_results (l : list rty) : string :=
  match l with [t] => print_rty t | l => "(" ++ String.concat "," (map print_rty l) ++ ")" end%string.
(** A method of an interface, its parameters without and with names. *)
Definition print_method (m : str * rsig) : string :=
  (text (fst m) ++ "(" ++ String.concat "," (map print_rty (fst (snd m))) ++ ")" ++ print_results (snd (snd m)))%string.
Definition print_named (n : str) (ps : list (string * rty)) (rs : list rty) : string :=
  (text n ++ "(" ++ String.concat "," (map (fun p => fst p ++ print_rty (snd p)) ps) ++ ")" ++ print_results rs)%string.
Definition print_rfunc (f : rfunc) : string :=
  ("func" ++ match fn_recv f with Some (x, t) => "(" ++ x ++ "*" ++ text t ++ ")" | None => "" end
   ++ print_named (fn_name f) (fn_params f) (fn_results f) ++ "{" ++ print_body tname pool (fn_body f) ++ "}")%string.
Definition print_rdecl (d : rdecl) : string :=
  match d with
  | DIface n ms emb => "type" ++ text n ++ "interface{" ++ String.concat "" (map print_method ms) ++ print_rty emb ++ "}"
  | DStruct n emb => "type" ++ text n ++ "struct{" ++ print_rty emb ++ "}"
  | DFunc f => print_rfunc f
  end%string.
End Text.

(** * Rules *)
Section Check.
Variable D : renv.
Fixpoint imeth (n : str) (ms : list (str * rsig)) : option rsig :=
  match ms with [] => None | (k, s) :: ms' => if str_eqb k n then Some s else imeth n ms' end.
(** Does the pointer to the struct have the methods of the interface? *)
Definition rimplements (t n : str) : bool :=
  match e_struct D t, e_iface D n with
  | Some a, Some (ms, b) => rty_eqb a b && forallb (fun m => match e_method D t (fst m) with Some s => sig_eqb s (snd m) | None => false end) ms
  | _, _ => false
  end.
Definition rassignable (a b : rty) : bool :=
  rty_eqb a b ||
  match a, b with
  | _, GAny => true
  | GNil, (GMsg _ | GErr | GNamed _ | GPtr _) => true
  | GPtr t, GNamed n => rimplements t n
  | _, _ => false
  end.
Definition rassigns (l r : list rty) : bool := Nat.eqb (List.length l) (List.length r) && forallb (fun p => rassignable (fst p) (snd p)) (combine l r).

Definition rctx := list (string * rty).
Fixpoint rvar (V : rctx) (x : string) : option rty :=
  match V with [] => None | (k, t) :: V' => if String.eqb k x then Some t else rvar V' x end.
Definition ris (V : rctx) (x : string) (t : rty) : bool := match rvar V x with Some y => rty_eqb y t | None => false end.
Definition rhas (V : rctx) (x : string) : bool := match rvar V x with Some _ => true | None => false end.
(** The variable [x] points to a struct that embeds [t]. *)
Definition rembeds (V : rctx) (x : string) (t : rty) : bool :=
  match rvar V x with Some (GPtr n) => match e_struct D n with Some y => rty_eqb y t | None => false end | _ => false end.
Definition on_side (V : rctx) (s : side) : bool :=
  match s with ClientStream => rembeds V "x" (GStream false) | ServerStream => rembeds V "x" (GStream true) | PlainStream => ris V "stream" (GStream true) end.
Definition side_var (s : side) : string := match s with PlainStream => "stream" | _ => "x" end.
Definition rguard {A} (b : bool) (a : A) : option A := if b then Some a else None.

Definition rarg_ty (V : rctx) (a : rarg) : option rty :=
  match a with
  | AVar x => rvar V x
  | AAssert x m => rguard (ris V x GAny) (GMsg m)
  | AStream t => match e_struct D t with Some y => rguard (ris V "stream" y) (GPtr t) | None => None end
  end.
Definition rarg_var (a : rarg) : string := match a with AVar x | AAssert x _ => x | AStream _ => "stream" end.
Fixpoint rargs_ty (V : rctx) (l : list rarg) : option (list rty) :=
  match l with
  | [] => Some []
  | a :: l' => match rarg_ty V a, rargs_ty V l' with Some t, Some ts => Some (t :: ts) | _, _ => None end
  end.
(** The types of an expression's values and the variables it reads. *)
Definition rexp_ty (V : rctx) (e : rexp) : option (list rty * list string) :=
  match e with
  | EVar x => match rvar V x with Some t => Some ([t], [x]) | None => None end
  | ENil => Some ([GNil], [])
  | ESendMsg s x | ERecvMsg s x => rguard (on_side V s && rhas V x) ([GErr], [side_var s; x])
  | ECloseSend => rguard (on_side V ClientStream) ([GErr], ["x"])
  | EDec x => rguard (ris V "dec" GDec && rhas V x) ([GErr], ["dec"; x])
  | ESrv svc me args =>
      match e_iface D (svc ++ bytes "Server") with
      | Some (ms, _) =>
          match imeth me ms, rargs_ty V args with
          | Some (ps, rs), Some ts => rguard (ris V "srv" GAny && rassigns ts ps) (rs, "srv" :: map rarg_var args)
          | _, _ => None
          end
      | None => None
      end
  | EIntercept =>
      rguard (ris V "interceptor" GIcpt && ris V "ctx" GCtx && rhas V "in" && ris V "info" GInfo && ris V "handler" GHandler)
        ([GAny; GErr], ["interceptor"; "ctx"; "in"; "info"; "handler"])
  | EErrorf _ => Some ([GErr], [])
  end.
(** Several expressions: one value each. *)
Fixpoint rexps_ty (V : rctx) (l : list rexp) : option (list rty * list string) :=
  match l with
  | [] => Some ([], [])
  | e :: l' => match rexp_ty V e, rexps_ty V l' with Some ([t], u), Some (ts, v) => Some (t :: ts, u ++ v) | _, _ => None end
  end.
Definition returned (V : rctx) (l : list rexp) : option (list rty * list string) :=
  match l with [e] => rexp_ty V e | _ => rexps_ty V l end.
(** return nil, err *)
Definition nil_err (R : list rty) (two : bool) : bool := rassigns (if two then [GNil; GErr] else [GErr]) R.

(** The variables a statement declares and those it reads; [R]: the results of the function. *)
Definition rstmt_ok (R : list rty) (V : rctx) (s : rstmt) : option (rctx * list string) :=
  match s with
  | RAlloc x m => Some ([(x, GMsg m)], [])
  | RInvoke _ =>
      rguard (rembeds V "c" GConn && ris V "ctx" GCtx && rhas V "in" && rhas V "out" && ris V "opts" GOpts) ([("err", GErr)], ["c"; "ctx"; "in"; "out"; "opts"])
  | RNewStream desc _ _ =>
      rguard (rembeds V "c" GConn && ris V "ctx" GCtx && ris V "opts" GOpts && e_desc D desc) ([("err", GErr); ("stream", GStream false)], ["c"; "ctx"; "opts"])
  | RIfErr => rguard (ris V "err" GErr && nil_err R true) ([], ["err"])
  | RWrap t => match e_struct D t with Some y => rguard (ris V "stream" y) ([("x", GPtr t)], ["stream"]) | None => None end
  | RTry e two => match rexp_ty V e with Some ([GErr], u) => rguard (nil_err R two) ([], u) | _ => None end
  | RReturn l => match returned V l with Some (ts, u) => rguard (rassigns ts R) ([], u) | None => None end
  | RIfPlain e => match rexp_ty V e with Some (ts, u) => rguard (ris V "interceptor" GIcpt && rassigns ts R) ([], "interceptor" :: u) | None => None end
  | RInfo _ => rguard (ris V "srv" GAny) ([("info", GInfo)], ["srv"])
  | RHandler e =>
      match rexp_ty (("req", GAny) :: ("ctx", GCtx) :: V) e with
      | Some (ts, u) => rguard (rassigns ts [GAny; GErr]) ([("handler", GHandler)], filter (fun x => negb (String.eqb x "req" || String.eqb x "ctx")) u)
      | None => None
      end
  end.
(** Statements: names are declared once in the body of a function (its parameters included). *)
Fixpoint rcheck (R : list rty) (V : rctx) (l : list rstmt) : option (rctx * list string) :=
  match l with
  | [] => Some (V, [])
  | s :: l' =>
      match rstmt_ok R V s with
      | Some (d, u) =>
          if forallb (fun p => negb (rhas V (fst p))) d
          then match rcheck R (d ++ V) l' with Some (V', v) => Some (V', u ++ v) | None => None end else None
      | None => None
      end
  end.
Fixpoint ends_in_return (l : list rstmt) : bool :=
  match l with [] => false | [RReturn _] => true | _ :: l' => ends_in_return l' end.
Fixpoint rdistinct (l : list string) : bool := match l with [] => true | x :: l' => negb (existsb (String.eqb x) l') && rdistinct l' end.
(** The function is accepted: its parameters have different names, its body is well typed, the
    variables it declares are read, and it ends in a return. *)
Definition rcompiles (f : rfunc) : bool :=
  let V := match fn_recv f with Some (x, t) => [(x, GPtr t)] | None => [] end ++ fn_params f in
  match rcheck (fn_results f) V (fn_body f) with
  | Some (V', u) =>
      rdistinct (map fst V) && forallb (fun x => existsb (String.eqb (fst x)) u) (firstn (List.length V' - List.length V) V') && ends_in_return (fn_body f)
  | None => false
  end.
End Check.
