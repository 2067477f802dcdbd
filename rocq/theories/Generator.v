(** The generator's own decisions (generator/features.go, generator/generator.go,
    generator/generatedfile.go), the RPC codecs (codec/) and the gRPC stubs
    (features/grpc/grpc.go).  Strings are lists of bytes. *)
From Coq Require Import ZArith List Bool Lia.
From Verif Require Import Base Schema Value Marshal Unmarshal Pattern.
Import ListNotations.
Open Scope Z_scope.

Definition str := list Z.
(** Go's comparison of strings (bytewise, lexicographic). *)
Definition str_eqb (a b : str) : bool := if list_eq_dec Z.eq_dec a b then true else false.
Fixpoint str_ltb (a b : str) : bool :=
  match a, b with
  | _, [] => false
  | [], _ => true
  | x :: a', y :: b' => if x <? y then true else if y <? x then false else str_ltb a' b'
  end.

(** * Maps, as association lists *)
(** A Go map index expression and assignment, for map[string]A. *)
Fixpoint map_get {A} (l : list (str * A)) (k : str) : option A :=
  match l with [] => None | (k', a) :: l' => if str_eqb k' k then Some a else map_get l' k end.
Fixpoint map_set {A} (l : list (str * A)) (k : str) (a : A) : list (str * A) :=
  match l with [] => [(k, a)] | (k', a') :: l' => if str_eqb k' k then (k, a) :: l' else (k', a') :: map_set l' k a end.

(** * Feature selection *)
(** generator/features.go:38-40: sort.Slice by name (insertion sort; the names are
    different, so every sorting algorithm gives the same result). *)
Fixpoint insert {A} (x : str * A) (l : list (str * A)) : list (str * A) :=
  match l with [] => [x] | y :: l' => if str_ltb (fst x) (fst y) then x :: l else y :: insert x l' end.
Fixpoint sort_names {A} (l : list (str * A)) : list (str * A) := match l with [] => [] | x :: l' => insert x (sort_names l') end.

Definition all_name : str := [97; 108; 108]. (* "all" *)
(** generator/features.go:18-29: the loop over the requested names.  [inr n]: the error
    about the unknown feature [n]. *)
Fixpoint require {F} (registered required : list (str * F)) (names : list str) : list (str * F) + str :=
  match names with
  | [] => inl required
  | name :: names' =>
    if str_eqb name all_name then inl registered
    else match map_get registered name with
         | None => inr name
         | Some feat => require registered (map_set required name feat) names'
         end
  end.
(** generator/features.go:16-48 findFeatures.  [iter] is the order in which the range
    loop at 35-37 visits the map, which Go leaves open. *)
Definition findFeatures {F} (iter : list (str * F) -> list (str * F)) (registered : list (str * F)) (names : list str) : list F + str :=
  match require registered [] names with
  | inr n => inr n
  | inl required => inl (map snd (sort_names (iter required)))
  end.
(** generator/features.go:50-52 RegisterFeature. *)
Definition RegisterFeature {F} (registered : list (str * F)) (name : str) (feat : F) : list (str * F) := map_set registered name feat.

(** * Object sets *)
(** protogen.GoIdent, and the path generator/generator.go:34 matches. *)
Record goident := mkId { go_name : str; go_path : str }.
Definition objectPath (g : goident) : str := go_path g ++ [46] ++ go_name g.
(** generator/generator.go:33-44 ObjectSet.Contains; [iter] as above.  Errors of Match are
    ignored. *)
Definition Contains (iter : list (str * bool) -> list (str * bool)) (o : list (str * bool)) (g : goident) : bool :=
  existsb (fun w => match Match (fst w) (objectPath g) with PYes => true | _ => false end) (iter o).
(** generator/generator.go:46-52 ObjectSet.Set: [None] is ErrBadPattern. *)
Definition Set_pattern (o : list (str * bool)) (s : str) : option (list (str * bool)) :=
  if ValidatePattern s then Some (map_set o s true) else None.
(** The flag package calls Set for each occurrence of the flag, up to the first error
    (cmd/protoc-gen-go-vtproto/main.go:28-33). *)
Fixpoint Set_all (o : list (str * bool)) (ss : list str) : option (list (str * bool)) :=
  match ss with
  | [] => Some o
  | s :: ss' => match Set_pattern o s with None => None | Some o' => Set_all o' ss' end
  end.
(** generator/generator.go:54-65 Config, the sets of patterns. *)
Record config := mkConfig { Poolable : list (str * bool); PoolableExclude : list (str * bool); IgnoreUnknownFields : list (str * bool) }.
(** A message: its Go identifier and its options mempool and ignore_unknown_fields
    ([None]: proto.GetExtension gives no bool). *)
Record message := mkMsg { msg_ident : goident; msg_mempool : option bool; msg_ignore : option bool }.
(** generator/generatedfile.go:27-42 ShouldPool; [None] is the nil message. *)
Definition ShouldPool iter (c : config) (m : option message) : bool :=
  match m with
  | None => false
  | Some m =>
    if Contains iter (PoolableExclude c) (msg_ident m) then false
    else if Contains iter (Poolable c) (msg_ident m) then true
    else match msg_mempool m with Some b => b | None => false end
  end.
(** generator/generatedfile.go:44-52 ShouldIgnoreUnknownFields. *)
Definition ShouldIgnoreUnknownFields iter (c : config) (m : message) : bool :=
  if Contains iter (IgnoreUnknownFields c) (msg_ident m) then true
  else match msg_ignore m with Some b => b | None => false end.

(** * RPC codecs *)
(** The dynamic value of an interface{}: a pointer to a generated message with helpers
    ([VNil]: a typed nil pointer), or anything else (including the nil interface), which
    has no MarshalVT and UnmarshalVT methods. *)
Inductive dyn := Helped (m : nat) (v : val) | Other (typename : str).
(** codec/grpc/grpc_codec.go:15-21 Codec.Marshal. *)
Definition grpc_Marshal (sc : schema) (d : dyn) : res unit (option (list Z)) :=
  match d with Helped m v => MarshalVT sc false m v | Other _ => Err ENotMessage tt end.
(** codec/grpc/grpc_codec.go:23-29 Codec.Unmarshal: the value after the call. *)
Definition grpc_Unmarshal (sc : schema) (data : list Z) (d : dyn) : res dyn dyn :=
  match d with
  | Helped m v => match UnmarshalVT sc m data v with Ok v' => Ok (Helped m v') | Err e v' => Err e (Helped m v') | Panic => Panic | NoFuel => NoFuel end
  | Other _ => Err ENotMessage d
  end.
(** codec/drpc/drpc_codec.go:13-19 Marshal and Unmarshal: a failing type assertion
    panics.  JSONMarshal and JSONUnmarshal (21-27) are not modelled. *)
Definition drpc_Marshal (sc : schema) (d : dyn) : res unit (option (list Z)) :=
  match d with Helped m v => MarshalVT sc false m v | Other _ => Panic end.
Definition drpc_Unmarshal (sc : schema) (data : list Z) (d : dyn) : res dyn dyn :=
  match d with Helped _ _ => grpc_Unmarshal sc data d | Other _ => Panic end.

(** * gRPC stubs *)
Record method := mkMethod { me_name : str; me_goname : str; me_client : bool; me_server : bool }.
Record service := mkService { sv_full : str; sv_go : str; sv_methods : list method }.
Definition streaming (m : method) : bool := me_client m || me_server m.
(** features/grpc/grpc.go:240 (and 347): /service/method. *)
Definition sname (s : service) (m : method) : str := [47] ++ sv_full s ++ [47] ++ me_name m.
(** features/grpc/grpc.go:338 (fmt.Sprintf "_%s_%s_Handler"). *)
Definition hname (s : service) (m : method) : str := [95] ++ sv_go s ++ [95] ++ me_goname m ++ [95; 72; 97; 110; 100; 108; 101; 114].
(** An entry of ServiceDesc.Streams, and of ServiceDesc.Methods. *)
Record sdesc := mkSdesc { sd_name : str; sd_handler : str; sd_server : bool; sd_client : bool }.
(** features/grpc/grpc.go:177-181: the handler names, one per method. *)
Definition handlerNames (s : service) : list str := map (hname s) (sv_methods s).
(** features/grpc/grpc.go:190-200: the Methods of the descriptor; [i] is the index. *)
Fixpoint desc_methods (names : list str) (i : nat) (ms : list method) : list (str * str) :=
  match ms with
  | [] => []
  | m :: ms' => if streaming m then desc_methods names (S i) ms' else (me_name m, nth i names []) :: desc_methods names (S i) ms'
  end.
(** features/grpc/grpc.go:201-217: the Streams of the descriptor. *)
Fixpoint desc_streams (names : list str) (i : nat) (ms : list method) : list sdesc :=
  match ms with
  | [] => []
  | m :: ms' => if negb (me_client m) && negb (me_server m) then desc_streams names (S i) ms'
                else mkSdesc (me_name m) (nth i names []) (me_server m) (me_client m) :: desc_streams names (S i) ms'
  end.
Definition Methods (s : service) := desc_methods (handlerNames s) 0 (sv_methods s).
Definition Streams (s : service) := desc_streams (handlerNames s) 0 (sv_methods s).
(** features/grpc/grpc.go:95-107: the index genClientMethod gets for each method. *)
Fixpoint client_indices (ms : list method) (methodIndex streamIndex : nat) : list nat :=
  match ms with
  | [] => []
  | m :: ms' => if negb (me_server m) && negb (me_client m) then methodIndex :: client_indices ms' (S methodIndex) streamIndex
                else streamIndex :: client_indices ms' methodIndex (S streamIndex)
  end.
(** What a client stub asks the connection for (features/grpc/grpc.go:238-267). *)
Inductive ccall := Invoke (path : str) | NewStream (desc : sdesc) (path : str).
(** The stub of the [k]-th method; [None] is an index out of range. *)
Definition client_call (s : service) (k : nat) : option ccall :=
  match nth_error (sv_methods s) k, nth_error (client_indices (sv_methods s) 0 0) k with
  | Some m, Some index =>
    if negb (me_server m) && negb (me_client m) then Some (Invoke (sname s m))
    else match nth_error (Streams s) index with Some d => Some (NewStream d (sname s m)) | None => None end
  | _, _ => None
  end.
(** The generated handlers: name and the server method they call
    (features/grpc/grpc.go:336-372). *)
Definition handlers (s : service) : list (str * str) := map (fun m => (hname s m, me_goname m)) (sv_methods s).
(** How google.golang.org/grpc (outside /repo) serves a path: it cuts it at the last '/',
    looks for the service, then for the method among Methods and then Streams. *)
Fixpoint last_slash (s : str) (cur : str) (best : option (str * str)) : option (str * str) :=
  match s with
  | [] => best
  | c :: s' => last_slash s' (cur ++ [c]) (if c =? 47 then Some (cur, s') else best)
  end.
Fixpoint find_stream (l : list sdesc) (name : str) : option str :=
  match l with [] => None | d :: l' => if str_eqb (sd_name d) name then Some (sd_handler d) else find_stream l' name end.
Definition serve (s : service) (path : str) : option str :=
  match path with
  | [] => None
  | c :: p =>
    if negb (c =? 47) then None else
    match last_slash p [] None with
    | Some (sv, me) =>
      if str_eqb sv (sv_full s) then
        match (match map_get (Methods s) me with Some h => Some h | None => find_stream (Streams s) me end) with
        | Some h => map_get (handlers s) h
        | None => None
        end
      else None
    | None => None
    end
  end.
