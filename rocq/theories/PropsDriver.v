(** Properties C70, C71 and C72: what a run of the plugin writes. *)
From Coq Require Import ZArith List Bool String Lia Permutation.
From Verif Require Import Base Pattern Generator GoRpc Driver DriverSpec DriverFacts DriverLinks PropsGen.
Import ListNotations.
Open Scope string_scope.
Open Scope Z_scope.
Open Scope list_scope.

(** The pooling decision of C43. *)
Definition pools (op : options) iter (h : head) : bool := ShouldPool iter (op_sets op) (Some (h_msg h)).

Lemma run_ok op fiter iter names files outs : run op fiter iter names files = ROk outs ->
  exists feats, findFeatures fiter registered names = inl feats /\ outs = DriverLinks.outs op iter files feats.
Proof.
  unfold run. destruct (findFeatures fiter registered names) as [feats|n]; [|discriminate]. destruct (existsb panics _); [discriminate|]. intros H. injection H as <-. eauto.
Qed.

Lemma func_name g g' : Func g = Func g' -> go_name g = go_name g'.
Proof. intros H. now injection H as ->. Qed.

(** * C70 *)
(** One output per requested file, in order, with its name, none for files that are only imported. *)
Theorem C70_files : forall op fiter iter names files outs, run op fiter iter names files = ROk outs ->
  map o_name outs = map (fun f => fl_prefix f ++ bytes "_vtproto.pb.go") (filter fl_generate files).
Proof. intros op fiter iter names files outs H. apply run_ok in H. destruct H as (feats & _ & ->). unfold DriverLinks.outs. rewrite map_map. reflexivity. Qed.
Print Assumptions C70_files.

(** The output of a file declares the documented methods of the selected features for every message
    of the file, at any depth, and for every member of its oneofs, and nothing else. *)
Theorem C70_declares : forall op fiter iter names files outs i file o feats,
  op_wrap op = false -> (forall file, In file (filter fl_generate files) -> own_path file) ->
  findFeatures fiter registered names = inl feats -> run op fiter iter names files = ROk outs ->
  nth_error (filter fl_generate files) i = Some file -> nth_error outs i = Some o ->
  forall s, In s (map d_sym (o_decls o)) <-> exists feat, In feat feats /\ expected (pools op iter) file feat s.
Proof.
  intros op fiter iter names files outs i file o feats W OP F H I J s. apply run_ok in H. destruct H as (feats' & F' & ->). rewrite F in F'. injection F' as <-.
  unfold DriverLinks.outs in J. rewrite nth_error_map, I in J. injection J as <-. apply out_names; auto. eapply nth_error_In; eauto.
Qed.
Print Assumptions C70_declares.

(** A file is left out exactly when no selected feature has anything to do and empty files are not
    allowed. *)
Theorem C70_skip : forall op fiter iter names files outs i file o feats,
  findFeatures fiter registered names = inl feats -> run op fiter iter names files = ROk outs ->
  nth_error (filter fl_generate files) i = Some file -> nth_error outs i = Some o ->
  (~ In o (written outs) <-> op_allow_empty op = false /\ forall feat, In feat feats -> ~ has_work (pools op iter) file feat).
Proof.
  intros op fiter iter names files outs i file o feats F H I J. apply run_ok in H. destruct H as (feats' & F' & ->). rewrite F in F'. injection F' as <-.
  assert (In o (DriverLinks.outs op iter files feats)) as IO by (eapply nth_error_In; eauto).
  unfold DriverLinks.outs in J. rewrite nth_error_map, I in J. injection J as <-.
  rewrite <- (out_skip op iter files feats) by (eapply nth_error_In; eauto). unfold written. rewrite filter_In. rewrite negb_true_iff. split.
  - intros N. apply not_false_iff_true. tauto.
  - intros E [_ N]. rewrite E in N. discriminate.
Qed.
Print Assumptions C70_skip.

(** Nothing is declared twice, in one file or in two, when the Go types and services of the files
    have different names. *)
Theorem C70_once : forall op fiter iter names files outs,
  (forall l, Permutation (fiter l) l) -> op_wrap op = false -> (forall file, In file (filter fl_generate files) -> own_path file) ->
  NoDup (flat_map file_types (filter fl_generate files)) -> NoDup (flat_map file_services (filter fl_generate files)) ->
  Forall exported (flat_map file_types (filter fl_generate files)) ->
  run op fiter iter names files = ROk outs -> NoDup (flat_map (fun o => map d_sym (o_decls o)) outs).
Proof.
  intros op fiter iter names files outs IT W OP NT NS E H. apply run_ok in H. destruct H as (feats & F & ->). pose proof (features_once _ _ _ IT F) as NF.
  set (gen := filter fl_generate files) in *. unfold DriverLinks.outs. fold gen.
  assert (forall file, In file gen -> Forall exported (file_types file)) as EF.
  { intros file I. rewrite Forall_forall in *. intros t J. apply E. apply in_flat_map. eauto. }
  pose (syms := fun feat file => if feature_eqb feat FGrpc then map (fun s => Func (mkId (bytes "New" ++ gs_go s ++ bytes "Client") (fl_import file))) (fl_services file)
                                 else flat_map (DriverFacts.names op iter feat) (flat_map real (fl_msgs file))).
  assert (flat_map (fun o => map d_sym (o_decls o)) (map (generateFile op iter (local_packages files) feats) gen) = flat_map (fun file => flat_map (fun feat => syms feat file) feats) gen) as ->.
  { rewrite flat_map_concat_map, map_map, <- flat_map_concat_map. apply flat_map_ext_in. intros file I. rewrite out_decls by auto. rewrite map_flat_map. apply flat_map_ext_in. intros feat _.
    unfold syms. destruct (feature_eqb feat FGrpc) eqn:Q.
    - assert (feat = FGrpc) as -> by (destruct feat as [| | |[]| | |[]]; try discriminate Q; reflexivity). rewrite generate_grpc, map_flat_map. cbn [grpc_decls map d_sym]. now rewrite flat_map_one.
    - apply generate_names; auto. intros ->. discriminate. }
  pose (own := fun (k : goident + goident) s => match k with inl t => owns t s | inr g => s = Func (mkId (bytes "New" ++ go_name g ++ bytes "Client") (go_path g)) end).
  apply (NoDup_owned _ (fun file => map inl (file_types file) ++ map inr (file_services file)) own).
  - intros [t|g] [t'|g'] s K K'; cbn [own] in K, K'.
    + f_equal. eapply owns_one; eauto.
    + exfalso. subst s. destruct K as [ET [[n K]|[K|K]]]; [discriminate| |]; destruct (new_not_pool (go_name g') t ET) as [D1 D2]; apply func_name in K; auto.
    + exfalso. subst s. destruct K' as [ET [[n K]|[K|K]]]; [discriminate| |]; destruct (new_not_pool (go_name g) t' ET) as [D1 D2]; apply func_name in K; auto.
    + subst s. f_equal. injection K' as K1 K2. destruct g as [a p], g' as [a' p']. cbn [go_name go_path] in *. subst. f_equal. eapply app_inv_tail. exact K1.
  - intros file s I J. apply in_flat_map in J. destruct J as (feat & _ & J). unfold syms in J. destruct (feature_eqb feat FGrpc).
    + apply in_map_iff in J. destruct J as (x & <- & J). exists (inr (mkId (gs_go x) (fl_import file))). split; [|reflexivity]. apply in_app_iff. right. apply in_map. unfold file_services. apply in_map_iff. eauto.
    + apply file_names_owned in J; auto. destruct J as (_ & t & J1 & J2). exists (inl t). split; [|exact J2]. apply in_app_iff. left. now apply in_map.
  - intros file I. apply (NoDup_owned _ (fun feat => [feat]) made_by).
    + apply made_by_one.
    + intros feat s _ J. exists feat. split; [now left|]. unfold syms in J. destruct (feature_eqb feat FGrpc) eqn:Q.
      * assert (feat = FGrpc) as -> by (destruct feat as [| | |[]| | |[]]; try discriminate Q; reflexivity). apply in_map_iff in J. destruct J as (x & <- & J). left. split; auto. cbn [go_name]. eauto.
      * apply file_names_owned in J; auto. apply J.
    + intros feat _. unfold syms. destruct (feature_eqb feat FGrpc) eqn:Q.
      * pose proof (NoDup_flat_in _ _ _ NS I) as N. unfold file_services in N. clear -N. revert N. induction (fl_services file) as [|x l IH]; cbn [map]; intros N; constructor; inversion N as [|? ? N1 N2]; subst; auto.
        intros K. apply in_map_iff in K. destruct K as (y & K & L). injection K as K. apply app_inv_tail in K. apply N1. apply in_map_iff. exists y. rewrite K. auto.
      * apply file_names_nodup; auto. now apply (NoDup_flat_in file_types gen file).
    + rewrite flat_map_one, map_id. exact NF.
  - clear -NT NS. revert NT NS. induction gen as [|a l IH]; cbn [flat_map]; intros NT NS; [constructor|].
    apply NoDup_app_inv in NT, NS. destruct NT as (T1 & T2 & T3), NS as (S1 & S2 & S3). apply NoDup_app_intro; [apply NoDup_app_intro| auto |].
    + apply FinFun.Injective_map_NoDup; auto. intros x y K. now injection K.
    + apply FinFun.Injective_map_NoDup; auto. intros x y K. now injection K.
    + intros x K K'. apply in_map_iff in K, K'. destruct K as (? & <- & _), K' as (? & K' & _). discriminate.
    + intros x K K'. apply in_flat_map in K'. destruct K' as (b & B & K'). rewrite in_app_iff in K, K'. destruct K as [K|K]; apply in_map_iff in K; destruct K as (k & <- & K);
        destruct K' as [K'|K']; apply in_map_iff in K'; destruct K' as (k' & Q & K'); try discriminate Q; injection Q as ->.
      * apply (T3 k); auto. apply in_flat_map. eauto.
      * apply (S3 k); auto. apply in_flat_map. eauto.
Qed.
Print Assumptions C70_once.

(** The run fails only because of a member of a oneof of a well-known type that is not in the table. *)
Theorem C70_panic : forall op fiter iter names files, run op fiter iter names files = RPanic ->
  exists file m f, In file (filter fl_generate files) /\ has_type file m /\ IsWellKnownType (Some (g_head m)) = true
    /\ In f (g_fields m) /\ map_get wellKnownFields (gf_full f) = None.
Proof.
  intros op fiter iter names files H. unfold run in H. destruct (findFeatures fiter registered names) as [feats|n]; [|discriminate]. destruct (existsb panics _) eqn:E; [|discriminate]. clear H.
  apply existsb_exists in E. destruct E as (o & I & E). apply in_map_iff in I. destruct I as (file & <- & I). unfold panics in E. apply existsb_exists in E. destruct E as (d & J & E).
  apply existsb_exists in E. destruct E as ([s|] & U & E); [discriminate|]. clear E. unfold generateFile in J. cbn [o_decls] in J. apply in_flat_map in J. destruct J as (r & R & J).
  apply in_map_iff in R. destruct R as (feat & <- & _). set (local := local_packages files) in *. set (cur := if op_wrap op then fl_dest file else fl_import file) in *.
  assert (forall m n, ~ In None (on_message local cur m n)) as NM.
  { intros [h|] n K; cbn [on_message] in K; [|contradiction]. destruct (IsWellKnownType (Some h)); [destruct K as [K|[]]; discriminate|]. destruct (IsLocalMessage local (Some h)); [destruct K as [K|[]]; discriminate|contradiction]. }
  assert (forall g h, ~ In None (Alloc op iter g h)) as NA by (intros g h K; unfold Alloc in K; destruct (pooled op iter (Some h)); [destruct K as [K|[]]; discriminate|contradiction]).
  assert (feat = FGrpc \/ feat <> FGrpc) as [->|NG] by (destruct feat; auto; right; discriminate).
  { exfalso. rewrite generate_grpc in J. apply in_flat_map in J. destruct J as (x & _ & [<-|[]]). cbn [d_uses] in U. apply in_flat_map in U. destruct U as (h & _ & U). now apply NA in U. }
  rewrite generate_decls in J by auto. apply in_flat_map in J. destruct J as (m & T & J). apply has_type_in in T. exists file, m.
  assert (forall n, In None (body local cur (g_head m) (g_fields m) n) ->
    exists f, In file (filter fl_generate files) /\ has_type file m /\ IsWellKnownType (Some (g_head m)) = true /\ In f (g_fields m) /\ map_get wellKnownFields (gf_full f) = None) as B.
  { intros n K. unfold body in K. apply in_app_iff in K. destruct K as [K|K].
    - apply in_flat_map in K. destruct K as (f & _ & K). now apply NM in K.
    - destruct (IsWellKnownType (Some (g_head m))) eqn:Q; [|contradiction]. apply in_map_iff in K. destruct K as (f & K & L). exists f. split; [auto|]. split; [auto|]. split; [reflexivity|].
      split; [apply members_in in L; apply L|]. unfold on_member, WellKnownFieldMap in K. destruct (map_get wellKnownFields (gf_full f)); [discriminate|reflexivity]. }
  destruct feat as [| | |strict| | |unsafe]; cbn [message_decls] in J.
  - destruct J as [<-|J]; cbn [d_uses] in U; [apply in_app_iff in U; destruct U as [U|U]; [now apply NA in U|eauto]|]. exfalso. apply in_app_iff in J. destruct J as [J|J].
    + destruct (op_wrap op); [contradiction|]. destruct J as [<-|[]]. destruct U as [U|[]]. discriminate.
    + apply in_map_iff in J. destruct J as (f & <- & _). now apply NM in U.
  - destruct J as [<-|J]; cbn [d_uses] in U; [eauto|]. exfalso. apply in_app_iff in J. destruct J as [J|J].
    + destruct (op_wrap op); [contradiction|]. destruct J as [<-|[]]. destruct U as [U|[]]. discriminate.
    + apply in_map_iff in J. destruct J as (f & <- & _). now apply NM in U.
  - contradiction.
  - unfold marshal_decls in J. apply in_app_iff in J. destruct J as [[<-|[<-|[<-|[]]]]|J].
    + exfalso. destruct U as [U|[U|[]]]; discriminate.
    + exfalso. destruct U as [U|[U|[]]]; discriminate.
    + cbn [d_uses] in U. destruct (strict && _); [|eauto]. apply in_app_iff in U. destruct U as [U|U]; [eauto|]. apply in_map_iff in U. destruct U as (f & U & _). discriminate.
    + exfalso. apply in_flat_map in J. destruct J as (f & _ & [<-|[<-|[]]]); [destruct U as [U|[U|[]]]; discriminate|now apply NM in U].
  - exfalso. unfold pool_decls in J. destruct (pooled op iter (Some (g_head m))); [|contradiction]. destruct J as [<-|[<-|[<-|[<-|[]]]]]; cbn [d_uses] in U.
    + contradiction.
    + apply in_flat_map in U. destruct U as (f & _ & U). unfold pool_field in U. destruct (gf_msg f) as [h|]; [|contradiction]. destruct (_ && _); [destruct U as [U|[]]; discriminate|contradiction].
    + destruct U as [U|[U|[]]]; discriminate.
    + destruct U as [U|[]]; discriminate.
  - destruct J as [<-|J]; cbn [d_uses] in U; [eauto|]. exfalso. apply in_map_iff in J. destruct J as (f & <- & _). now apply NM in U.
  - exfalso. destruct J as [<-|[]]. cbn [d_uses] in U. apply in_flat_map in U. destruct U as (f & _ & U). unfold unmarshal_field in U. apply in_app_iff in U. destruct U as [U|U]; [now apply NM in U|].
    destruct (gf_msg f); [|contradiction]. destruct (_ && _); [now apply NA in U|contradiction].
Qed.
Print Assumptions C70_panic.

(** The order in which Go visits the features and the patterns does not show in the output. *)
Lemma pooled_iter op iter iter' : (forall l, Permutation (iter l) l) -> (forall l, Permutation (iter' l) l) -> forall h, pooled op iter h = pooled op iter' h.
Proof.
  intros I I' [h|]; [|reflexivity]. unfold pooled. cbn [option_map]. apply eq_true_iff_eq. rewrite !C43_precedence by auto. reflexivity.
Qed.
Lemma alloc_iter op iter iter' : (forall h, pooled op iter h = pooled op iter' h) -> forall g h, Alloc op iter g h = Alloc op iter' g h.
Proof. intros E g h. unfold Alloc. now rewrite E. Qed.
Lemma generate_iter op iter iter' local cur feat file : (forall h, pooled op iter h = pooled op iter' h) ->
  GenerateFile op iter local cur feat file = GenerateFile op iter' local cur feat file.
Proof.
  intros E. assert (fst (GenerateFile op iter local cur feat file) = fst (GenerateFile op iter' local cur feat file)
    /\ snd (GenerateFile op iter local cur feat file) = snd (GenerateFile op iter' local cur feat file)) as [E1 E2].
  - split.
    + assert (feat = FGrpc \/ feat <> FGrpc) as [->|NG] by (destruct feat; auto; right; discriminate).
      * rewrite !generate_grpc. apply flat_map_ext_in. intros s _. unfold grpc_decls. do 2 f_equal. apply flat_map_ext_in. intros h _. now apply alloc_iter.
      * rewrite !generate_decls by auto. apply flat_map_ext_in. intros m _. destruct feat; cbn [message_decls]; try reflexivity; unfold clone_decls, pool_decls, unmarshal_decls.
        -- now rewrite (alloc_iter op iter iter' E).
        -- rewrite E. destruct (pooled op iter' (Some (g_head m))); [|reflexivity]. do 3 f_equal. apply flat_map_ext_in. intros f _. unfold pool_field. destruct (gf_msg f); [|reflexivity]. now rewrite E.
        -- do 2 f_equal. apply flat_map_ext_in. intros f _. unfold unmarshal_field. f_equal. destruct (gf_msg f); [|reflexivity]. now rewrite E, (alloc_iter op iter iter' E).
    + apply eq_true_iff_eq. rewrite !generate_once. destruct feat; cbn [has_work]; try reflexivity. setoid_rewrite E. reflexivity.
  - destruct (GenerateFile op iter local cur feat file), (GenerateFile op iter' local cur feat file). cbn in *. congruence.
Qed.
Theorem C70_deterministic : forall op fiter fiter' iter iter' names names' files,
  (forall l, Permutation (fiter l) l) -> (forall l, Permutation (fiter' l) l) -> (forall l, Permutation (iter l) l) -> (forall l, Permutation (iter' l) l) ->
  (forall n, In n names <-> In n names') -> forall outs outs',
  run op fiter iter names files = ROk outs -> run op fiter' iter' names' files = ROk outs' -> outs = outs'.
Proof.
  intros op fiter fiter' iter iter' names names' files F F' I I' N outs outs' H H'. apply run_ok in H, H'. destruct H as (feats & H & ->), H' as (feats' & H' & ->).
  assert (feats = feats') as <- by exact (C42_order _ _ _ _ _ _ _ _ F F' registered_keys N H H').
  unfold DriverLinks.outs. apply map_ext. intros file. unfold generateFile.
  assert (forall cur, map (fun feat => GenerateFile op iter (local_packages files) cur feat file) feats = map (fun feat => GenerateFile op iter' (local_packages files) cur feat file) feats) as E.
  { intros cur. apply map_ext. intros feat. apply generate_iter. now apply pooled_iter. }
  now rewrite E.
Qed.
Print Assumptions C70_deterministic.

(** * C71 *)
(** When the feature size is selected with marshal, every file of a package is generated with the
    others, the messages that use pools are generated with the feature pool, and no file of
    google.protobuf is among them: every method and function that the printed code refers to exists.
    (The literal claim, without these conditions, is refuted below.) *)
Theorem C71_links_partial : forall op fiter iter names files feats,
  findFeatures fiter registered names = inl feats -> op_wrap op = false -> (forall file, In file (filter fl_generate files) -> own_path file) ->
  (forall strict, In (FMarshal strict) feats -> In FSize feats) ->
  (forall file h, In file (filter fl_generate files) -> refers file h \/ (exists m, has_type file m /\ g_head m = h) -> pools op iter h = true -> In FPool feats /\ generated files h) ->
  (forall file h, In file (filter fl_generate files) -> refers file h -> In (h_pkg h) (map fl_pkg (filter fl_generate files)) ->
     generated files h /\ map_get wellKnownTypes (h_full h) = None) ->
  (forall file m, In file (filter fl_generate files) -> has_type file m -> map_get wellKnownTypes (h_full (g_head m)) = None) ->
  exists outs, run op fiter iter names files = ROk outs
    /\ forall o d u, In o (written outs) -> In d (o_decls o) -> In u (d_uses d) -> exists s, u = Some s /\ declared outs s.
Proof.
  intros op fiter iter names files feats F W OP SZ PL LO KN.
  assert (forall h, map_get wellKnownTypes (h_full h) = None -> IsWellKnownType (Some h) = false) as NK by (intros h E; unfold IsWellKnownType; now rewrite E).
  assert (forall file h, In file (filter fl_generate files) -> refers file h -> IsLocal (local_packages files) (h_pkg h) = true -> generated files h /\ IsWellKnownType (Some h) = false) as LO'.
  { intros file h I R L. unfold IsLocal in L. apply existsb_exists in L. destruct L as (p & L & Q). apply str_eqb_eq in Q. subst p. destruct (LO file h I R L) as [G K]. auto. }
  assert (forall file m, In file (filter fl_generate files) -> has_type file m -> IsWellKnownType (Some (g_head m)) = false) as KN' by eauto.
  assert (forall file d, In file (filter fl_generate files) -> In d (o_decls (generateFile op iter (local_packages files) feats file)) -> Forall (good op iter files feats) (d_uses d)) as G.
  { intros file d I J. rewrite out_decls in J by auto. apply in_flat_map in J. destruct J as (feat & FI & J).
    assert (feat = FGrpc \/ feat <> FGrpc) as [->|NG] by (destruct feat; auto; right; discriminate).
    - rewrite generate_grpc in J. apply in_flat_map in J. destruct J as (s & S & [<-|[]]). cbn [d_uses]. rewrite Forall_forall. intros u U. apply in_flat_map in U. destruct U as (h & T & U).
      assert (Forall (good op iter files feats) (Alloc op iter (h_ident h) h)) as A; [|rewrite Forall_forall in A; auto].
      apply (alloc_good op iter files feats W OP PL file); auto. left. right. eauto.
    - rewrite generate_decls in J by auto. apply in_flat_map in J. destruct J as (m & T & J). apply has_type_in in T.
      apply (message_good op iter files feats W OP SZ PL LO' KN' file m I T feat d FI J). }
  exists (DriverLinks.outs op iter files feats). split.
  - unfold run. rewrite F. fold (DriverLinks.outs op iter files feats). destruct (existsb panics (DriverLinks.outs op iter files feats)) eqn:P; [|reflexivity]. exfalso.
    apply existsb_exists in P. destruct P as (o & I & P). apply in_map_iff in I. destruct I as (file & <- & I). unfold panics in P. apply existsb_exists in P. destruct P as (d & J & P).
    apply existsb_exists in P. destruct P as ([s|] & U & P); [discriminate|]. specialize (G file d I J). rewrite Forall_forall in G. destruct (G _ U) as (s & Q & _). discriminate.
  - intros o d u O J U. unfold written in O. apply filter_In in O. destruct O as [O _]. apply in_map_iff in O. destruct O as (file & <- & I).
    specialize (G file d I J). rewrite Forall_forall in G. exact (G _ U).
Qed.
Print Assumptions C71_links_partial.

(** ** Examples: a file with nested messages, a map, a oneof, a pooled list, and well-known types *)
Definition no_sets : config := mkConfig [] [] [].
Definition ex_op : options := mkOptions false false no_sets.
Definition hd_of (pkg go path : string) (mempool : option bool) : head :=
  mkHead (bytes pkg ++ [46] ++ bytes go) (bytes pkg) (mkMsg (mkId (bytes go) (bytes path)) mempool None).
Definition msg_field (h : head) (lst mp : bool) : gfield := mkGField (bytes "f") (mkId (bytes "F") (bytes "acme.io/pb")) None lst mp false (Some h).
Definition one_field (o wrapper path full : string) (h : option head) : gfield := mkGField (bytes full) (mkId (bytes wrapper) (bytes path)) (Some (bytes o)) false false false h.
Definition hA := hd_of "acme" "A" "acme.io/pb" None.
Definition hB := hd_of "acme" "A_B" "acme.io/pb" (Some true).
Definition hE := hd_of "acme" "A_MEntry" "acme.io/pb" None.
Definition hC := hd_of "acme" "C" "acme.io/pb" (Some true).
Definition hT := hd_of "google.protobuf" "Timestamp" "google.golang.org/protobuf/types/known/timestamppb" None.
Definition hX := hd_of "other" "X" "other.io/pb" None.
Definition mB := GMsg hB false [msg_field hT false false] [].
Definition mE := GMsg hE true [msg_field hC false false] [].
Definition mA := GMsg hA false [msg_field hB true false; msg_field hC false true; msg_field hX false false; one_field "choice" "A_N" "acme.io/pb" "acme.A.n" None; one_field "choice" "A_T" "acme.io/pb" "acme.A.t" (Some hT)] [mB; mE].
Definition mC := GMsg hC false [msg_field hC false false] [].
Definition file1 := mkGFile true (bytes "a") (bytes "acme.io/pb") (bytes "acme") [] [mA] [].
Definition file2 := mkGFile true (bytes "c") (bytes "acme.io/pb") (bytes "acme") [] [mC] [mkGService (bytes "Svc") [hA; hC]].
Definition file3 := mkGFile false (bytes "x") (bytes "other.io/pb") (bytes "other") [] [GMsg hX false [] []] [].
Definition show (s : sym) : list Z := match s with Method t n => go_name t ++ [46] ++ n | Func g => go_name g end.
Definition shown (outs : list out) : list (list str) := map (fun o => map (fun d => show (d_sym d)) (o_decls o)) (written outs).
Definition same (a b : list (list str)) : bool := if list_eq_dec (list_eq_dec (list_eq_dec Z.eq_dec)) a b then true else false.
Definition ids {A} (l : list A) : list A := l.
Definition names_of (l : list string) : list str := map bytes l.
Definition run_of (op : options) (names : list string) (files : list gfile) : list out :=
  match run op ids ids (names_of names) files with ROk outs => outs | _ => [] end.

Example C70_example :
  same (shown (run_of ex_op ["size"; "unmarshal"; "pool"; "grpc"] [file1; file3; file2]))
    [ names_of ["vtprotoPool_A_B"; "A_B.ResetVT"; "A_B.ReturnToVTPool"; "A_BFromVTPool"; "A_B.SizeVT"; "A.SizeVT"; "A_N.SizeVT"; "A_T.SizeVT"; "A_B.UnmarshalVT"; "A.UnmarshalVT"];
      names_of ["NewSvcClient"; "vtprotoPool_C"; "C.ResetVT"; "C.ReturnToVTPool"; "CFromVTPool"; "C.SizeVT"; "C.UnmarshalVT"] ] = true.
Proof. vm_compute. reflexivity. Qed.

Lemma ex_has_type file m : In file [file1; file2] -> has_type file m -> (file = file1 /\ (m = mA \/ m = mB)) \/ (file = file2 /\ m = mC).
Proof.
  intros [<-|[<-|[]]] H; apply has_type_in in H; cbn in H.
  - destruct H as [<-|[<-|[]]]; left; auto.
  - destruct H as [<-|[]]; right; auto.
Qed.
Lemma ex_own file : In file [file1; file2] -> own_path file.
Proof.
  intros I m H. destruct (ex_has_type file m I H) as [[-> [->| ->]]|[-> ->]]; (split; [reflexivity|]); intros f J; repeat (destruct J as [<-|J]); try contradiction; reflexivity.
Qed.
Lemma nodup_ids (l : list goident) : forallb (fun x => Nat.eqb (List.length (filter (id_eqb x) l)) 1) l = true -> NoDup l.
Proof.
  assert (forall a b, id_eqb a b = true <-> a = b) as E.
  { intros [a p] [b q]. unfold id_eqb. cbn [go_name go_path]. rewrite andb_true_iff, !str_eqb_eq. split; [intros [-> ->]; reflexivity|intros H; injection H; auto]. }
  intros H. rewrite forallb_forall in H.
  assert (forall a b : goident, {a = b} + {a <> b}) as D. { intros a b. destruct (id_eqb a b) eqn:Q; [left; now apply E|right; intros K; apply E in K; congruence]. }
  apply (NoDup_count_occ' D). intros x I. specialize (H x I). apply Nat.eqb_eq in H. rewrite <- H. clear -E D. induction l as [|a l IH]; [reflexivity|]. cbn [count_occ filter].
  destruct (D a x) as [->|N].
  - rewrite (proj2 (E x x) eq_refl). cbn [List.length]. now rewrite IH.
  - destruct (id_eqb x a) eqn:Q; [apply E in Q; congruence|exact IH].
Qed.
Example C70_nonvacuous :
  (forall file, In file (filter fl_generate [file1; file3; file2]) -> own_path file)
  /\ NoDup (flat_map file_types [file1; file2]) /\ NoDup (flat_map file_services [file1; file2]) /\ Forall exported (flat_map file_types [file1; file2])
  /\ List.length (run_of ex_op ["all"] [file1; file3; file2]) = 2%nat /\ has_type file1 mB.
Proof.
  split; [exact ex_own|]. split; [apply nodup_ids; vm_compute; reflexivity|]. split; [apply nodup_ids; vm_compute; reflexivity|].
  split; [repeat constructor; cbn; discriminate|]. split; [vm_compute; reflexivity|]. apply has_type_in. cbn. auto.
Qed.
(** The table of well-known fields is not complete for a message of that name with another member. *)
Example C70_panic_example :
  run ex_op ids ids (names_of ["size"])
    [mkGFile true (bytes "v") (bytes "p") (bytes "google.protobuf") [] [GMsg (hd_of "google.protobuf" "Value" "p" None) false [one_field "kind" "Value_X" "p" "google.protobuf.Value.x" None] []] []] = RPanic.
Proof. vm_compute. reflexivity. Qed.
Example C71_nonvacuous :
  let op := ex_op in let files := [file1; file3; file2] in
  exists feats, findFeatures ids registered (names_of ["all"]) = inl feats
  /\ (forall strict, In (FMarshal strict) feats -> In FSize feats)
  /\ (forall file h, In file (filter fl_generate files) -> refers file h \/ (exists m, has_type file m /\ g_head m = h) -> pools op ids h = true -> In FPool feats /\ generated files h)
  /\ (forall file h, In file (filter fl_generate files) -> refers file h -> In (h_pkg h) (map fl_pkg (filter fl_generate files)) ->
     generated files h /\ map_get wellKnownTypes (h_full h) = None)
  /\ (forall file m, In file (filter fl_generate files) -> has_type file m -> map_get wellKnownTypes (h_full (g_head m)) = None)
  /\ refers file1 hT /\ pools op ids hC = true.
Proof.
  cbn zeta. eexists. split; [vm_compute; reflexivity|].
  assert (generated [file1; file3; file2] hA /\ generated [file1; file3; file2] hB /\ generated [file1; file3; file2] hC) as (GA & GB & GC).
  { split; [|split].
    - exists file1, mA. split; [now left|]. split; [apply has_type_in; cbn; auto|reflexivity].
    - exists file1, mB. split; [now left|]. split; [apply has_type_in; cbn; auto|reflexivity].
    - exists file2, mC. split; [right; now left|]. split; [apply has_type_in; cbn; auto|reflexivity]. }
  assert (forall file h, In file [file1; file2] -> refers file h -> h = hA \/ h = hB \/ h = hC \/ h = hT \/ h = hX) as R.
  { intros file h I [(m & f & T & J & E)|(s & J & E)].
    - destruct (ex_has_type file m I T) as [[-> [->| ->]]|[-> ->]]; repeat (destruct J as [<-|J]); try contradiction; cbn in E; try discriminate E; injection E as <-; tauto.
    - destruct I as [<-|[<-|[]]]; repeat (destruct J as [<-|J]); try contradiction; cbn in E; repeat (destruct E as [<-|E]); try contradiction; tauto. }
  split; [intros s _; cbn; tauto|]. split; [|split; [|split; [|split]]].
  - intros file h I K P. split; [cbn; tauto|]. assert (h = hA \/ h = hB \/ h = hC \/ h = hT \/ h = hX) as Q.
    { destruct K as [K|(m & T & <-)]; [now apply (R file)|]. destruct (ex_has_type file m I T) as [[-> [->| ->]]|[-> ->]]; cbn; tauto. }
    destruct Q as [->|[->|[->|[->| ->]]]]; auto; vm_compute in P; discriminate.
  - intros file h I K L. destruct (R file h I K) as [->|[->|[->|[->| ->]]]].
    + split; [exact GA|vm_compute; reflexivity].
    + split; [exact GB|vm_compute; reflexivity].
    + split; [exact GC|vm_compute; reflexivity].
    + exfalso. vm_compute in L. destruct L as [L|[L|[]]]; discriminate.
    + exfalso. vm_compute in L. destruct L as [L|[L|[]]]; discriminate.
  - intros file m I T. destruct (ex_has_type file m I T) as [[-> [->| ->]]|[-> ->]]; vm_compute; reflexivity.
  - left. exists mB. eexists. split; [apply has_type_in; cbn; auto|]. split; [now left|reflexivity].
  - vm_compute. reflexivity.
Qed.

(** The literal claim is false.  A name that is used and not declared: *)
Definition declaredb (outs : list out) (s : sym) : bool := existsb (fun o => existsb (fun d => sym_eqb (d_sym d) s) (o_decls o)) (written outs) || shipped s.
Lemma sym_eqb_refl s : sym_eqb s s = true.
Proof. destruct s; cbn [sym_eqb]; unfold id_eqb; now rewrite !str_eqb_refl. Qed.
Lemma declaredb_ok outs s : declaredb outs s = false -> ~ declared outs s.
Proof.
  intros H [(o & d & I & J & <-)|K]; unfold declaredb in H; apply orb_false_elim in H; destruct H as [H1 H2]; [|congruence].
  rewrite <- not_true_iff_false in H1. apply H1. apply existsb_exists. exists o. split; auto. apply existsb_exists. exists d. split; auto. apply sym_eqb_refl.
Qed.
Definition undeclared (op : options) (names : list string) (files : list gfile) (s : sym) : Prop :=
  exists outs, run op ids ids (names_of names) files = ROk outs /\ (exists o d, In o (written outs) /\ In d (o_decls o) /\ In (Some s) (d_uses d)) /\ ~ declared outs s.
Definition undeclaredb (op : options) (names : list string) (files : list gfile) (s : sym) : bool :=
  match run op ids ids (names_of names) files with
  | ROk outs => existsb (fun o => existsb (fun d => existsb (fun u => match u with Some s' => sym_eqb s' s | None => false end) (d_uses d)) (o_decls o)) (written outs) && negb (declaredb outs s)
  | _ => false
  end.
Lemma undeclaredb_ok op names files s : undeclaredb op names files s = true -> undeclared op names files s.
Proof.
  unfold undeclaredb, undeclared. destruct (run op ids ids (names_of names) files) as [| |outs]; try discriminate. intros H. apply andb_prop in H. destruct H as [H D]. exists outs. split; auto. split.
  - apply existsb_exists in H. destruct H as (o & I & H). apply existsb_exists in H. destruct H as (d & J & H). apply existsb_exists in H. destruct H as ([s'|] & U & H); [|discriminate].
    exists o, d. split; auto. split; auto. assert (s' = s) as <-; [|exact U]. clear -H. destruct s', s; cbn [sym_eqb] in H; try discriminate H; unfold id_eqb in H.
    + apply andb_prop in H. destruct H as [H K]. apply andb_prop in H. destruct H as [H L]. apply str_eqb_eq in H, K, L. destruct t, t0. cbn in *. congruence.
    + apply andb_prop in H. destruct H as [H L]. apply str_eqb_eq in H, L. destruct g, g0. cbn in *. congruence.
  - apply negb_true_iff in D. now apply declaredb_ok.
Qed.

(** (1) A package has two files and only one is generated: the messages of the other are taken for
    local.  (2) A message has the option mempool and the feature pool is not selected: UnmarshalVT
    takes messages from a pool that does not exist.  (3) A message uses pools and is imported from a
    package that is not generated.  (4) marshal without size.  (5) Files of google.protobuf are
    generated: they are taken to be one Go package. *)
Theorem C71_refuted :
  (exists files s, undeclared ex_op ["all"] files s /\ (forall file, In file (filter fl_generate files) -> own_path file))
  /\ (exists files s, undeclared ex_op ["marshal"; "size"; "unmarshal"] files s /\ forall file, In file files -> fl_generate file = true)
  /\ (exists files s, undeclared ex_op ["all"] files s /\ (forall h, generated files h -> pools ex_op ids h = true))
  /\ (exists files s, undeclared ex_op ["marshal"] files s)
  /\ (exists files s, undeclared ex_op ["all"] files s /\ forall file, In file files -> fl_generate file = true).
Proof.
  split; [|split; [|split; [|split]]].
  - exists [file1; mkGFile false (bytes "c") (bytes "acme.io/pb") (bytes "acme") [] [mC] []], (Method (h_ident hC) (bytes "SizeVT")). split.
    + apply undeclaredb_ok. vm_compute. reflexivity.
    + intros file [<-|[]]. apply ex_own. now left.
  - exists [file2], (FromVTPool (h_ident hC)). split.
    + apply undeclaredb_ok. vm_compute. reflexivity.
    + intros file [<-|[]]. reflexivity.
  - pose (hP := hd_of "acme" "P" "acme.io/pb" (Some true)). pose (hQ := hd_of "other" "Q" "other.io/pb" (Some true)).
    exists [mkGFile false (bytes "q") (bytes "other.io/pb") (bytes "other") [] [GMsg hQ false [] []] []; mkGFile true (bytes "p") (bytes "acme.io/pb") (bytes "acme") [] [GMsg hP false [msg_field hQ false false] []] []],
      (FromVTPool (h_ident hQ)). split.
    + apply undeclaredb_ok. vm_compute. reflexivity.
    + intros h (file & m & I & T & <-). destruct I as [<-|[]]. apply has_type_in in T. destruct T as [<-|[]]. vm_compute. reflexivity.
  - exists [file2], (Method (h_ident hC) (bytes "SizeVT")). apply undeclaredb_ok. vm_compute. reflexivity.
  - pose (hAny := hd_of "google.protobuf" "Any" "anypb" None). pose (hOption := hd_of "google.protobuf" "Option" "typepb" None).
    exists [mkGFile true (bytes "any") (bytes "anypb") (bytes "google.protobuf") [] [GMsg hAny false [] []] []; mkGFile true (bytes "type") (bytes "typepb") (bytes "google.protobuf") [] [GMsg hOption false [msg_field hAny false false] []] []],
      (Method (mkId (bytes "Any") (bytes "typepb")) (bytes "SizeVT")). split.
    + apply undeclaredb_ok. vm_compute. reflexivity.
    + intros file [<-|[<-|[]]]; reflexivity.
Qed.
Print Assumptions C71_refuted.

(** * C72 *)
(** With the option wrap, every method that is printed has a receiver type that the file declares:
    for files without messages inside messages, whose oneofs belong to well-known types, and without
    pools. *)
Theorem C72_wrap_partial : forall op fiter iter names files outs feats o d t n,
  findFeatures fiter registered names = inl feats -> op_wrap op = true -> run op fiter iter names files = ROk outs ->
  (forall file m, In file (filter fl_generate files) -> has_type file m ->
     In m (fl_msgs file) /\ h_pkg (g_head m) = fl_pkg file /\ pools op iter (g_head m) = false
     /\ (forall f x, In f (g_fields m) -> gf_oneof f = Some x -> map_get wellKnownTypes (h_full (g_head m)) <> None)) ->
  In o outs -> In d (o_decls o) -> d_sym d = Method t n -> In t (o_types o).
Proof.
  intros op fiter iter names files outs feats o d t n F W H C I J E. apply run_ok in H. destruct H as (feats' & _ & ->). apply in_map_iff in I. destruct I as (file & <- & I).
  unfold generateFile in J |- *. rewrite W in J |- *. cbn [o_decls o_types] in J |- *. apply in_flat_map in J. destruct J as (r & R & J). apply in_map_iff in R. destruct R as (feat & <- & _).
  assert (feat = FGrpc \/ feat <> FGrpc) as [->|NG] by (destruct feat; auto; right; discriminate).
  { rewrite generate_grpc in J. apply in_flat_map in J. destruct J as (x & _ & [<-|[]]). discriminate. }
  rewrite generate_decls in J by auto. apply in_flat_map in J. destruct J as (m & T & J). apply has_type_in in T. destruct (C file m I T) as (TL & PK & NP & OF). clear C.
  set (cur := fl_dest file) in *. set (local := local_packages files) in *.
  assert (In (here cur (h_name (g_head m))) (wrapper_types op cur file)) as T1. { unfold wrapper_types. rewrite W. apply in_flat_map. exists m. split; auto. now left. }
  assert (forall f, In f (members (g_fields m)) -> In (here cur (go_name (gf_ident f))) (wrapper_types op cur file)) as T2.
  { intros f K. unfold wrapper_types. rewrite W. apply in_flat_map. exists m. split; auto. right. now apply (in_map (fun f => here cur (go_name (gf_ident f)))). }
  assert (forall f, In f (members (g_fields m)) -> IsWellKnownType (Some (g_head m)) && IsLocalMessage local (Some (g_head m)) = true) as KL.
  { intros f K. apply members_in in K. destruct K as [K [x X]]. specialize (OF f x K X). apply andb_true_intro. split.
    - unfold IsWellKnownType. destruct (map_get wellKnownTypes (h_full (g_head m))); [reflexivity|contradiction].
    - unfold IsLocalMessage, IsLocal. apply existsb_exists. exists (h_pkg (g_head m)). split; [|apply str_eqb_refl]. rewrite PK. unfold local, local_packages. now apply in_map. }
  destruct feat as [| | |strict| | |unsafe]; cbn [message_decls] in J.
  - unfold clone_decls in J. rewrite W in J. destruct J as [<-|J]; [injection E as <- _; exact T1|]. cbn [app] in J. apply in_map_iff in J. destruct J as (f & <- & K). injection E as <- _. auto.
  - unfold equal_decls in J. rewrite W in J. destruct J as [<-|J]; [injection E as <- _; exact T1|]. cbn [app] in J. apply in_map_iff in J. destruct J as (f & <- & K). injection E as <- _. auto.
  - contradiction.
  - unfold marshal_decls in J. apply in_app_iff in J. destruct J as [[<-|[<-|[<-|[]]]]|J]; try (injection E as <- _; exact T1).
    apply in_flat_map in J. destruct J as (f & K & [<-|[<-|[]]]); injection E as <- _; auto.
  - unfold pool_decls in J. unfold pools in NP. unfold pooled in J. cbn [option_map] in J. rewrite NP in J. contradiction.
  - destruct J as [<-|J]; [injection E as <- _; exact T1|]. apply in_map_iff in J. destruct J as (f & <- & K). rewrite (KL f K) in E. injection E as <- _. auto.
  - destruct J as [<-|[]]. injection E as <- _. exact T1.
Qed.
Print Assumptions C72_wrap_partial.

(** google/protobuf/struct.proto, generated with the option wrap as the Makefile does: the types and
    methods are those of types/known/structpb/struct_vtproto.pb.go, in the same order. *)
Definition pb := "google.golang.org/protobuf/types/known/structpb".
Definition kn (go : string) : head := hd_of "google.protobuf" go pb None.
Definition v_field (go full : string) (h : option head) : gfield := one_field "Kind" ("Value_" ++ go) pb ("google.protobuf.Value." ++ full) h.
Definition m_Struct := GMsg (kn "Struct") false [msg_field (kn "Value") false true] [GMsg (kn "Struct_FieldsEntry") true [msg_field (kn "Value") false false] []].
Definition m_Value := GMsg (kn "Value") false
  [v_field "NullValue" "null_value" None; v_field "NumberValue" "number_value" None; v_field "StringValue" "string_value" None; v_field "BoolValue" "bool_value" None;
   v_field "StructValue" "struct_value" (Some (kn "Struct")); v_field "ListValue" "list_value" (Some (kn "ListValue"))] [].
Definition m_ListValue := GMsg (kn "ListValue") false [msg_field (kn "Value") true false] [].
Definition f_struct := mkGFile true (bytes "structpb/struct") (bytes pb) (bytes "google.protobuf") (vtWellKnownPackage ++ bytes "structpb") [m_Struct; m_Value; m_ListValue] [].
Definition wrap_op : options := mkOptions true false no_sets.
Example C72_structpb :
  same (shown (run_of wrap_op ["all"] [f_struct])) [names_of
    ["Struct.CloneVT"; "Value.CloneVT"; "Value_NullValue.CloneVT"; "Value_NumberValue.CloneVT"; "Value_StringValue.CloneVT"; "Value_BoolValue.CloneVT"; "Value_StructValue.CloneVT"; "Value_ListValue.CloneVT"; "ListValue.CloneVT"; "Struct.EqualVT"; "Value.EqualVT"; "Value_NullValue.EqualVT"; "Value_NumberValue.EqualVT"; "Value_StringValue.EqualVT"; "Value_BoolValue.EqualVT"; "Value_StructValue.EqualVT"; "Value_ListValue.EqualVT"; "ListValue.EqualVT"; "Struct.MarshalVT"; "Struct.MarshalToVT"; "Struct.MarshalToSizedBufferVT"; "Value.MarshalVT"; "Value.MarshalToVT"; "Value.MarshalToSizedBufferVT"; "Value_NullValue.MarshalToVT"; "Value_NullValue.MarshalToSizedBufferVT"; "Value_NumberValue.MarshalToVT"; "Value_NumberValue.MarshalToSizedBufferVT"; "Value_StringValue.MarshalToVT"; "Value_StringValue.MarshalToSizedBufferVT"; "Value_BoolValue.MarshalToVT"; "Value_BoolValue.MarshalToSizedBufferVT"; "Value_StructValue.MarshalToVT"; "Value_StructValue.MarshalToSizedBufferVT"; "Value_ListValue.MarshalToVT"; "Value_ListValue.MarshalToSizedBufferVT"; "ListValue.MarshalVT"; "ListValue.MarshalToVT"; "ListValue.MarshalToSizedBufferVT"; "Struct.MarshalVTStrict"; "Struct.MarshalToVTStrict"; "Struct.MarshalToSizedBufferVTStrict"; "Value.MarshalVTStrict"; "Value.MarshalToVTStrict"; "Value.MarshalToSizedBufferVTStrict"; "Value_NullValue.MarshalToVTStrict"; "Value_NullValue.MarshalToSizedBufferVTStrict"; "Value_NumberValue.MarshalToVTStrict"; "Value_NumberValue.MarshalToSizedBufferVTStrict"; "Value_StringValue.MarshalToVTStrict"; "Value_StringValue.MarshalToSizedBufferVTStrict"; "Value_BoolValue.MarshalToVTStrict"; "Value_BoolValue.MarshalToSizedBufferVTStrict"; "Value_StructValue.MarshalToVTStrict"; "Value_StructValue.MarshalToSizedBufferVTStrict"; "Value_ListValue.MarshalToVTStrict"; "Value_ListValue.MarshalToSizedBufferVTStrict"; "ListValue.MarshalVTStrict"; "ListValue.MarshalToVTStrict"; "ListValue.MarshalToSizedBufferVTStrict"; "Struct.SizeVT"; "Value.SizeVT"; "Value_NullValue.SizeVT"; "Value_NumberValue.SizeVT"; "Value_StringValue.SizeVT"; "Value_BoolValue.SizeVT"; "Value_StructValue.SizeVT"; "Value_ListValue.SizeVT"; "ListValue.SizeVT"; "Struct.UnmarshalVT"; "Value.UnmarshalVT"; "ListValue.UnmarshalVT"; "Struct.UnmarshalVTUnsafe"; "Value.UnmarshalVTUnsafe"; "ListValue.UnmarshalVTUnsafe"]] = true
  /\ same [map go_name (flat_map o_types (run_of wrap_op ["all"] [f_struct]))] [names_of ["Struct"; "Value"; "Value_NullValue"; "Value_NumberValue"; "Value_StringValue"; "Value_BoolValue"; "Value_StructValue"; "Value_ListValue"; "ListValue"]] = true
  /\ forallb (fun o => forallb (fun d => shipped (d_sym d) && forallb (fun u => match u with Some s => declaredb (run_of wrap_op ["all"] [f_struct]) s | None => false end) (d_uses d)) (o_decls o))
       (run_of wrap_op ["all"] [f_struct]) = true.
Proof. split; [|split]; vm_compute; reflexivity. Qed.
Example C72_nonvacuous : forall file m, In file (filter fl_generate [f_struct]) -> has_type file m ->
  In m (fl_msgs file) /\ h_pkg (g_head m) = fl_pkg file /\ pools wrap_op ids (g_head m) = false
  /\ (forall f x, In f (g_fields m) -> gf_oneof f = Some x -> map_get wellKnownTypes (h_full (g_head m)) <> None).
Proof.
  intros file m [<-|[]] T. apply has_type_in in T. cbn [fl_msgs f_struct flat_map] in T. assert (m = m_Struct \/ m = m_Value \/ m = m_ListValue) as M by (cbn in T; tauto || (destruct T as [<-|[<-|[<-|[]]]]; tauto)).
  destruct M as [->|[->| ->]]; (split; [cbn; tauto|]); (split; [vm_compute; reflexivity|]); (split; [vm_compute; reflexivity|]); intros f x I O.
  - repeat (destruct I as [<-|I]); try contradiction. discriminate O.
  - vm_compute. discriminate.
  - repeat (destruct I as [<-|I]); try contradiction. discriminate O.
Qed.
(** The literal claim is false: the types are declared for the messages of the file only, the methods
    are printed for the messages inside them as well. *)
Theorem C72_refuted : exists files outs o d t n, run wrap_op ids ids (names_of ["all"]) files = ROk outs /\ In o (written outs) /\ In d (o_decls o) /\ d_sym d = Method t n /\ ~ In t (o_types o).
Proof.
  set (files := [mkGFile true (bytes "a") (bytes "acme.io/pb") (bytes "acme") (bytes "acme.io/wrapped") [GMsg hA false [] [GMsg hB false [] []]] []]).
  destruct (run wrap_op ids ids (names_of ["all"]) files) as [| |outs] eqn:R; [vm_compute in R; discriminate..|].
  exists files, outs. vm_compute in R. injection R as <-. eexists. eexists. eexists. eexists. split; [vm_compute; reflexivity|]. split; [left; reflexivity|]. split; [left; reflexivity|]. split; [reflexivity|].
  intros H. vm_compute in H. destruct H as [H|[]]. discriminate.
Qed.
Print Assumptions C72_refuted.
