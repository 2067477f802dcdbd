(** What a user expects of a run of the plugin (specification for C70-C72). *)
From Coq Require Import ZArith List Bool String.
From Verif Require Import Base Generator GoRpc Driver.
Import ListNotations.
Open Scope string_scope.
Open Scope Z_scope.
Open Scope list_scope.

(** A message is in a list of messages, or inside one of them at any depth. *)
Inductive within (m : gmsg) : list gmsg -> Prop :=
| w_here : forall l, In m l -> within m l
| w_inside : forall n l, In n l -> within m (g_nested n) -> within m l.
(** The messages of a file that have a Go type: all but the entries of maps. *)
Definition has_type (file : gfile) (m : gmsg) : Prop := within m (fl_msgs file) /\ g_entry m = false.

(** The documented methods (README.md, "Available features") of a message and of the wrapper of a
    member of a oneof. *)
Definition documented (feat : feature) : list string :=
  match feat with
  | FClone => ["CloneVT"; "CloneMessageVT"]
  | FEqual => ["EqualVT"; "EqualMessageVT"]
  | FGrpc => []
  | FMarshal false => ["MarshalVT"; "MarshalToVT"; "MarshalToSizedBufferVT"]
  | FMarshal true => ["MarshalVTStrict"; "MarshalToVTStrict"; "MarshalToSizedBufferVTStrict"]
  | FPool => ["ResetVT"; "ReturnToVTPool"]
  | FSize => ["SizeVT"]
  | FUnmarshal false => ["UnmarshalVT"]
  | FUnmarshal true => ["UnmarshalVTUnsafe"]
  end.
Definition wrapper_documented (feat : feature) : list string :=
  match feat with
  | FClone => ["CloneVT"]
  | FEqual => ["EqualVT"]
  | FMarshal false => ["MarshalToVT"; "MarshalToSizedBufferVT"]
  | FMarshal true => ["MarshalToVTStrict"; "MarshalToSizedBufferVTStrict"]
  | FSize => ["SizeVT"]
  | _ => []
  end.

(** What the file is to declare for one feature. *)
Inductive expected (pool : head -> bool) (file : gfile) (feat : feature) : sym -> Prop :=
| e_method : forall m n, has_type file m -> In n (documented feat) -> (feat = FPool -> pool (g_head m) = true) ->
    expected pool file feat (Method (h_ident (g_head m)) (bytes n))
| e_wrapper : forall m f o n, has_type file m -> In f (g_fields m) -> gf_oneof f = Some o -> In n (wrapper_documented feat) ->
    expected pool file feat (Method (gf_ident f) (bytes n))
| e_get : forall m, has_type file m -> feat = FPool -> pool (g_head m) = true ->
    expected pool file feat (Func (mkId (h_name (g_head m) ++ bytes "FromVTPool") (go_path (h_ident (g_head m)))))
| e_pool : forall m, has_type file m -> feat = FPool -> pool (g_head m) = true ->
    expected pool file feat (Func (mkId (bytes "vtprotoPool_" ++ h_name (g_head m)) (go_path (h_ident (g_head m)))))
| e_service : forall s, In s (fl_services file) -> feat = FGrpc ->
    expected pool file feat (Func (mkId (bytes "New" ++ gs_go s ++ bytes "Client") (fl_import file))).

(** protogen gives the types of a file the import path of the file. *)
Definition own_path (file : gfile) : Prop :=
  forall m, has_type file m ->
    go_path (h_ident (g_head m)) = fl_import file /\ forall f, In f (g_fields m) -> go_path (gf_ident f) = fl_import file.

(** There is something to do for a feature. *)
Definition has_work (pool : head -> bool) (file : gfile) (feat : feature) : Prop :=
  match feat with
  | FGrpc => fl_services file <> []
  | FPool => exists m, has_type file m /\ pool (g_head m) = true
  | _ => exists m, has_type file m
  end.

(** The Go types of a file, in the order in which the plugin visits the messages. *)
Fixpoint real (m : gmsg) : list gmsg :=
  let 'GMsg _ entry _ nested := m in flat_map real nested ++ if entry then [] else [m].
Definition types_of (m : gmsg) : list goident := h_ident (g_head m) :: map gf_ident (members (g_fields m)).
Definition file_types (file : gfile) : list goident := flat_map types_of (flat_map real (fl_msgs file)).
Definition file_services (file : gfile) : list goident := map (fun s => mkId (gs_go s) (fl_import file)) (fl_services file).
(** An exported name: it begins with a capital letter. *)
Definition exported (g : goident) : Prop := match go_name g with c :: _ => 65 <= c <= 90 | [] => False end.

(** The methods the packages under types/known ship (read off the files *_vtproto.pb.go there;
    PropsDriver.v compares the list with a run of the plugin). *)
Definition shipped (s : sym) : bool :=
  match s with
  | Method t n =>
    (existsb (fun p => id_eqb (snd p) t) wellKnownTypes
     && existsb (fun x => str_eqb (bytes x) n)
          ["CloneVT"; "EqualVT"; "MarshalVT"; "MarshalToVT"; "MarshalToSizedBufferVT"; "MarshalVTStrict"; "MarshalToVTStrict";
           "MarshalToSizedBufferVTStrict"; "SizeVT"; "UnmarshalVT"; "UnmarshalVTUnsafe"])
    || (existsb (fun p => id_eqb (snd p) t) wellKnownFields
        && existsb (fun x => str_eqb (bytes x) n)
             ["CloneVT"; "EqualVT"; "MarshalToVT"; "MarshalToSizedBufferVT"; "MarshalToVTStrict"; "MarshalToSizedBufferVTStrict"; "SizeVT"])
  | Func _ => false
  end.

(** A name is declared: in a file of the run that is written, or in a shipped package. *)
Definition declared (outs : list out) (s : sym) : Prop :=
  (exists o d, In o (written outs) /\ In d (o_decls o) /\ d_sym d = s) \/ shipped s = true.
(** A message that another one refers to. *)
Definition refers (file : gfile) (h : head) : Prop :=
  (exists m f, has_type file m /\ In f (g_fields m) /\ gf_msg f = Some h) \/ exists s, In s (fl_services file) /\ In h (gs_types s).
