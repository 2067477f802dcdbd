(** One run of the plugin (cmd/protoc-gen-go-vtproto/main.go, generator/generator.go:54-166,
    generator/generatedfile.go): which files it writes, which Go methods, functions and types each
    of them declares, and which ones the printed bodies refer to.  The bodies themselves are the
    subject of GenSize.v, GenMarshal.v, GenUnmarshal.v, GenEqual.v, GenClone.v, GenPool.v and
    GenRpc.v; here only the names matter. *)
From Coq Require Import ZArith List Bool String.
From Verif Require Import Base Generator GoRpc.
Import ListNotations.
Open Scope string_scope.
Open Scope Z_scope.
Open Scope list_scope.

(** * What protoc hands to the plugin (google.golang.org/protobuf/compiler/protogen) *)
(** A message as another descriptor refers to it: full name, proto package of its file, Go name
    and options. *)
Record head := mkHead { h_full : str; h_pkg : str; h_msg : message }.
(** message.GoIdent. *)
Definition h_ident (h : head) : goident := msg_ident (h_msg h).
(** protogen.Field: full name, Go name of the wrapper type, Go name of the oneof it belongs to
    (None for no or a synthetic oneof), IsList, IsMap, Kind = GroupKind, and the message it holds
    (field.Message; for a map field.Message.Fields[1].Message). *)
Record gfield := mkGField { gf_full : str; gf_ident : goident; gf_oneof : option str; gf_list : bool; gf_map : bool; gf_group : bool; gf_msg : option head }.
(** protogen.Message; [entry] is Desc.IsMapEntry. *)
Inductive gmsg := GMsg (h : head) (entry : bool) (fields : list gfield) (nested : list gmsg).
(** The parts of a protogen.Message. *)
Definition g_head (m : gmsg) : head := let 'GMsg h _ _ _ := m in h.
Definition g_entry (m : gmsg) : bool := let 'GMsg _ e _ _ := m in e.
Definition g_fields (m : gmsg) : list gfield := let 'GMsg _ _ l _ := m in l.
Definition g_nested (m : gmsg) : list gmsg := let 'GMsg _ _ _ l := m in l.
(** protogen.Service: its Go name and the input and output messages of its methods. *)
Record gservice := mkGService { gs_go : str; gs_types : list head }.
(** protogen.File.  [fl_dest] is the import path of the package the output is compiled into when
    the option wrap is set (the plugin does not know it). *)
Record gfile := mkGFile { fl_generate : bool; fl_prefix : str; fl_import : str; fl_pkg : str; fl_dest : str; fl_msgs : list gmsg; fl_services : list gservice }.

(** generator/generator.go:54-65: the options that are not sets of patterns. *)
Record options := mkOptions { op_wrap : bool; op_allow_empty : bool; op_sets : config }.

(** * Names *)
(** A name at package level of the output: a method of a type, or a function or variable. *)
Inductive sym := Method (t : goident) (name : str) | Func (g : goident).
(** Comparison of names (specification only). *)
Definition id_eqb (a b : goident) : bool := str_eqb (go_name a) (go_name b) && str_eqb (go_path a) (go_path b).
Definition sym_eqb (a b : sym) : bool :=
  match a, b with
  | Method t n, Method t' n' => id_eqb t t' && str_eqb n n'
  | Func g, Func g' => id_eqb g g'
  | _, _ => false
  end.
(** A declaration that is printed, and the names of generated code its body refers to at compile
    time ([None]: computing the name panics). *)
Record decl := mkDecl { d_sym : sym; d_uses : list (option sym) }.

(** The features the packages under features register (main.go:7-13 and the init functions, e.g.
    features/marshal/marshalto.go:20-27). *)
Inductive feature := FClone | FEqual | FGrpc | FMarshal (strict : bool) | FPool | FSize | FUnmarshal (unsafe : bool).
Definition registered : list (str * feature) :=
  fold_left (fun l p => RegisterFeature l (bytes (fst p)) (snd p))
    [("clone", FClone); ("equal", FEqual); ("grpc", FGrpc); ("marshal", FMarshal false); ("marshal_strict", FMarshal true);
     ("pool", FPool); ("size", FSize); ("unmarshal", FUnmarshal false); ("unmarshal_unsafe", FUnmarshal true)] [].

(** generator/generatedfile.go:142-171: the tables.  The import path of vtWellKnownPackage. *)
Definition vtWellKnownPackage : str := bytes "github.com/planetscale/vtprotobuf/types/known/".
Definition known_type (p : string * string) : str * goident := (bytes "google.protobuf." ++ bytes (fst p), mkId (bytes (fst p)) (vtWellKnownPackage ++ bytes (snd p))).
Definition wellKnownTypes : list (str * goident) :=
  map known_type
    [("Any", "anypb"); ("Duration", "durationpb"); ("Empty", "emptypb"); ("FieldMask", "fieldmaskpb"); ("Timestamp", "timestamppb");
     ("DoubleValue", "wrapperspb"); ("FloatValue", "wrapperspb"); ("Int64Value", "wrapperspb"); ("UInt64Value", "wrapperspb");
     ("Int32Value", "wrapperspb"); ("UInt32Value", "wrapperspb"); ("BoolValue", "wrapperspb"); ("StringValue", "wrapperspb");
     ("BytesValue", "wrapperspb"); ("Struct", "structpb"); ("Value", "structpb"); ("ListValue", "structpb")].
Definition known_field (p : string * string) : str * goident := (bytes "google.protobuf.Value." ++ bytes (fst p), mkId (bytes "Value_" ++ bytes (snd p)) (vtWellKnownPackage ++ bytes "structpb")).
Definition wellKnownFields : list (str * goident) :=
  map known_field
    [("null_value", "NullValue"); ("number_value", "NumberValue"); ("string_value", "StringValue"); ("bool_value", "BoolValue");
     ("struct_value", "StructValue"); ("list_value", "ListValue")].

Section File.
(** The file that is being written: protogen.GeneratedFile with the Config and LocalPackages
    (generatedfile.go:17-21), the order in which Go visits maps ([iter]), and the import path
    unqualified names belong to. *)
Context (op : options) (iter : list (str * bool) -> list (str * bool)) (local : list str) (cur : str).

(** generatedfile.go:27-42 ShouldPool. *)
Definition pooled (m : option head) : bool := ShouldPool iter (op_sets op) (option_map h_msg m).
(** A name without qualifier, as in `func (m *`, ccTypeName (e.g. size.go:290-292). *)
Definition here (name : str) : goident := mkId name cur.
(** protogen prints an identifier without import path as it is: it belongs to this package. *)
Definition resolve (g : goident) : goident := if str_eqb (go_path g) [] then here (go_name g) else g.

(** generatedfile.go:108-122 IsLocalMessage, IsLocalField (a field is in the file of its message). *)
Definition IsLocal (pkg : str) : bool := existsb (str_eqb pkg) local.
Definition IsLocalMessage (m : option head) : bool := match m with None => false | Some h => IsLocal (h_pkg h) end.
(** generatedfile.go:173-179 IsWellKnownType. *)
Definition IsWellKnownType (m : option head) : bool :=
  match m with None => false | Some h => match map_get wellKnownTypes (h_full h) with Some _ => true | None => false end end.
(** generatedfile.go:195-204 WellKnownTypeMap (the zero GoIdent for names that are not in the
    table; the import path is cleared for local messages). *)
Definition WellKnownTypeMap (h : head) : goident :=
  let res := match map_get wellKnownTypes (h_full h) with Some g => g | None => mkId [] [] end in
  if IsLocal (h_pkg h) then mkId (go_name res) [] else res.
(** generatedfile.go:181-193 WellKnownFieldMap of a field of a message in package [pkg]; [None] is
    the panic. *)
Definition WellKnownFieldMap (pkg : str) (f : gfield) : option goident :=
  match map_get wellKnownFields (gf_full f) with
  | None => None
  | Some g => Some (if IsLocal pkg then mkId (go_name g) [] else g)
  end.

(** The pattern of size.go:42-58, marshalto.go:720-745, unmarshal.go:56-81, clone.go:70-90 and
    203-215, equal.go:274-284: a method [name] of a message is called directly when it is a
    well-known type or local; otherwise the value is asked at run time. *)
Definition on_message (m : option head) (name : string) : list (option sym) :=
  match m with
  | None => []
  | Some h =>
    if IsWellKnownType m then [Some (Method (resolve (WellKnownTypeMap h)) (bytes name))]
    else if IsLocalMessage m then [Some (Method (h_ident h) (bytes name))] else []
  end.
(** field.Oneof != nil && !field.Oneof.Desc.IsSynthetic(). *)
Definition in_oneof (f : gfield) : bool := match gf_oneof f with Some _ => true | None => false end.
(** The loops over the fields outside and inside oneofs (e.g. size.go:303-308, 330-333). *)
Definition plain (l : list gfield) : list gfield := filter (fun f => negb (in_oneof f)) l.
Definition members (l : list gfield) : list gfield := filter in_oneof l.
(** The body of a method of a message: the fields that are in no oneof, and for well-known types
    the cases of a type switch over each oneof (size.go:303-321, marshalto.go:649-668,
    equal.go:71-105, clone.go:53-67; every member of every oneof is one case). *)
Definition on_member (h : head) (name : string) (f : gfield) : option sym :=
  match WellKnownFieldMap (h_pkg h) f with Some g => Some (Method (resolve g) (bytes name)) | None => None end.
(** The names in the body of a method of a message, see above. *)
Definition body (h : head) (fields : list gfield) (name : string) : list (option sym) :=
  flat_map (fun f => on_message (gf_msg f) name) (plain fields)
  ++ (if IsWellKnownType (Some h) then map (on_member h name) (members fields) else []).

(** message.GoIdent.GoName; the names pool.go:44 and 101-104 print. *)
Definition h_name (h : head) : str := go_name (h_ident h).
Definition FromVTPool (g : goident) : sym := Func (mkId (go_name g ++ bytes "FromVTPool") (go_path g)).
Definition vtprotoPool (g : goident) : sym := Func (mkId (bytes "vtprotoPool_" ++ go_name g) (go_path g)).
(** generatedfile.go:54-65 Alloc. *)
Definition Alloc (g : goident) (h : head) : list (option sym) := if pooled (Some h) then [Some (FromVTPool g)] else [].

(** ** features/size/size.go:278-348 *)
Definition size_decls (h : head) (fields : list gfield) : list decl :=
  mkDecl (Method (here (h_name h)) (bytes "SizeVT")) (body h fields "SizeVT")
  :: map (fun f =>
       (* 334-337 *)
       let t := if IsWellKnownType (Some h) && IsLocalMessage (Some h) then here (go_name (gf_ident f)) else gf_ident f in
       mkDecl (Method t (bytes "SizeVT")) (on_message (gf_msg f) "SizeVT")) (members fields).

(** ** features/marshal/marshalto.go:528-703 *)
Definition methodMarshal (strict : bool) : string := if strict then "MarshalVTStrict" else "MarshalVT".
Definition methodMarshalTo (strict : bool) : string := if strict then "MarshalToVTStrict" else "MarshalToVT".
Definition methodMarshalToSizedBuffer (strict : bool) : string := if strict then "MarshalToSizedBufferVTStrict" else "MarshalToSizedBufferVT".
Definition marshal_decls (strict : bool) (h : head) (fields : list gfield) : list decl :=
  let own t name := Some (Method t (bytes name)) in
  let sized := methodMarshalToSizedBuffer strict in
  let m := here (h_name h) in
  [ mkDecl (Method m (bytes (methodMarshal strict))) [own m "SizeVT"; own m sized];
    mkDecl (Method m (bytes (methodMarshalTo strict))) [own m "SizeVT"; own m sized];
    mkDecl (Method m (bytes sized))
      (* 625-642: the strict method names the wrapper type of each member *)
      (if strict && negb (IsWellKnownType (Some h)) then
         body h fields sized ++ map (fun f => own (here (go_name (gf_ident f))) sized) (members fields)
       else body h fields sized) ]
  ++ flat_map (fun f =>
       let t := here (go_name (gf_ident f)) in
       [ mkDecl (Method t (bytes (methodMarshalTo strict))) [own t "SizeVT"; own t sized];
         mkDecl (Method t (bytes sized)) (on_message (gf_msg f) sized) ]) (members fields).

(** ** features/unmarshal/unmarshal.go:797-899, 482-575 *)
Definition methodUnmarshal (unsafe : bool) : string := if unsafe then "UnmarshalVTUnsafe" else "UnmarshalVT".
Definition unmarshal_field (unsafe : bool) (h : head) (f : gfield) : list (option sym) :=
  on_message (gf_msg f) (methodUnmarshal unsafe)
  ++ match gf_msg f with
     | Some h' => if pooled (Some h) && negb (gf_list f) && negb (gf_map f) && negb (gf_group f) then Alloc (h_ident h') h' else []
     | None => []
     end.
Definition unmarshal_decls (unsafe : bool) (h : head) (fields : list gfield) : list decl :=
  [ mkDecl (Method (here (h_name h)) (bytes (methodUnmarshal unsafe))) (flat_map (unmarshal_field unsafe h) fields) ].

(** ** features/clone/clone.go:154-312 *)
Definition clone_decls (h : head) (fields : list gfield) : list decl :=
  let m := here (h_name h) in
  mkDecl (Method m (bytes "CloneVT")) (Alloc m h ++ body h fields "CloneVT")
  :: (if op_wrap op then [] else [mkDecl (Method m (bytes "CloneMessageVT")) [Some (Method m (bytes "CloneVT"))]])
  ++ map (fun f => mkDecl (Method (here (go_name (gf_ident f))) (bytes "CloneVT")) (on_message (gf_msg f) "CloneVT")) (members fields).

(** ** features/equal/equal.go:45-188 *)
Definition equal_decls (h : head) (fields : list gfield) : list decl :=
  let m := here (h_name h) in
  mkDecl (Method m (bytes "EqualVT")) (body h fields "EqualVT")
  :: (if op_wrap op then [] else [mkDecl (Method m (bytes "EqualMessageVT")) [Some (Method m (bytes "EqualVT"))]])
  ++ map (fun f => mkDecl (Method (here (go_name (gf_ident f))) (bytes "EqualVT")) (on_message (gf_msg f) "EqualVT")) (members fields).

(** ** features/pool/pool.go:32-107.  The names carry the message's own import path. *)
Definition pool_field (f : gfield) : list (option sym) :=
  match gf_msg f with
  | None => []
  | Some h' =>
    if pooled (Some h') && negb (gf_map f) then
      [Some (Method (h_ident h') (bytes (if gf_list f then "ResetVT" else "ReturnToVTPool")))]
    else []
  end.
Definition pool_decls (h : head) (fields : list gfield) : list decl :=
  let m := h_ident h in
  if pooled (Some h) then
    [ mkDecl (vtprotoPool m) [];
      mkDecl (Method m (bytes "ResetVT")) (flat_map pool_field fields);
      mkDecl (Method m (bytes "ReturnToVTPool")) [Some (Method m (bytes "ResetVT")); Some (vtprotoPool m)];
      mkDecl (FromVTPool m) [Some (vtprotoPool m)] ]
  else [].

(** ** features/grpc/grpc.go:84-224, reduced to the constructor of the client and the messages the
    stubs allocate (248, 302, 312, 343, 362, 410: input and output of every method).  The other
    names are in GenRpc.v. *)
Definition grpc_decls (s : gservice) : list decl :=
  [ mkDecl (Func (here (bytes "New" ++ gs_go s ++ bytes "Client"))) (flat_map (fun h => Alloc (h_ident h) h) (gs_types s)) ].

(** The method message of each feature for one message. *)
Definition message_decls (feat : feature) (h : head) (fields : list gfield) : list decl :=
  match feat with
  | FClone => clone_decls h fields
  | FEqual => equal_decls h fields
  | FGrpc => []
  | FMarshal strict => marshal_decls strict h fields
  | FPool => pool_decls h fields
  | FSize => size_decls h fields
  | FUnmarshal unsafe => unmarshal_decls unsafe h fields
  end.
(** The method message of every feature: first the nested messages, then nothing for map entries
    (e.g. size.go:278-287, pool.go:32-41). The second result is the flag [once]. *)
Fixpoint feature_message (feat : feature) (m : gmsg) : list decl * bool :=
  let 'GMsg h entry fields nested := m in
  let inner := fold_right (fun n r => (fst (feature_message feat n) ++ fst r, snd (feature_message feat n) || snd r)) ([], false) nested in
  if entry then inner
  else match feat with
       | FPool => (fst inner ++ message_decls feat h fields, snd inner || pooled (Some h))
       | _ => (fst inner ++ message_decls feat h fields, true)
       end.
(** GenerateFile of every feature (e.g. size.go:34-40); for grpc grpc_plugin.go:27-34. *)
Definition GenerateFile (feat : feature) (file : gfile) : list decl * bool :=
  match feat with
  | FGrpc => match fl_services file with [] => ([], false) | _ => (flat_map grpc_decls (fl_services file), true) end
  | _ => fold_right (fun n r => (fst (feature_message feat n) ++ fst r, snd (feature_message feat n) || snd r)) ([], false) (fl_msgs file)
  end.

(** generator/generator.go:145-154: the types the option wrap declares, for the messages of the
    file (not for those inside them). *)
Definition wrapper_types (file : gfile) : list goident :=
  if op_wrap op then
    flat_map (fun m => here (h_name (g_head m)) :: map (fun f => here (go_name (gf_ident f))) (members (g_fields m))) (fl_msgs file)
  else [].
End File.

(** * The output *)
Record out := mkOut { o_name : str; o_path : str; o_types : list goident; o_decls : list decl; o_skip : bool }.

(** generator/generator.go:113-166 generateFile.  The header (build tag, comment, package clause,
    version check) does not depend on the messages and is left out.  A skipped file is kept by
    protogen but not written. *)
Definition generateFile (op : options) (iter : list (str * bool) -> list (str * bool)) (local : list str) (feats : list feature) (file : gfile) : out :=
  let cur := if op_wrap op then fl_dest file else fl_import file in
  let rs := map (fun feat => GenerateFile op iter local cur feat file) feats in
  let generated := existsb snd rs in
  mkOut (fl_prefix file ++ bytes "_vtproto.pb.go") cur (wrapper_types op cur file) (flat_map fst rs) (negb generated && negb (op_allow_empty op)).

(** generator/generator.go:83-88: the proto packages of the files that are generated. *)
Definition local_packages (files : list gfile) : list str := map fl_pkg (filter fl_generate files).

(** The result of a run: an error (unknown feature), a panic, or the files. *)
Inductive result := RError (name : str) | RPanic | ROk (outs : list out).
(** generatedfile.go:185-187: the panic ends the run. *)
Definition panics (o : out) : bool := existsb (fun d => existsb (fun u => match u with None => true | Some _ => false end) (d_uses d)) (o_decls o).
(** main.go:36-43, generator/generator.go:75-111: NewGenerator, then Generate over the files in
    order, without those that are only imported.  [fiter], [iter]: the order in which Go visits
    the map of features and the sets of patterns. *)
Definition run (op : options) fiter (iter : list (str * bool) -> list (str * bool)) (names : list str) (files : list gfile) : result :=
  match findFeatures fiter registered names with
  | inr n => RError n
  | inl feats =>
    let outs := map (generateFile op iter (local_packages files) feats) (filter fl_generate files) in
    if existsb panics outs then RPanic else ROk outs
  end.

(** What protoc writes to disk. *)
Definition written (outs : list out) : list out := filter (fun o => negb (o_skip o)) outs.
