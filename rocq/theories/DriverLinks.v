(** Features are selected once; what a run needs for every name it uses to be declared (C70, C71). *)
From Coq Require Import ZArith List Bool String Lia Permutation Sorted.
From Verif Require Import Base Generator GoRpc Driver DriverSpec DriverFacts PropsGen.
Import ListNotations.
Open Scope string_scope.
Open Scope Z_scope.
Open Scope list_scope.

Lemma map_get_in {A} (l : list (str * A)) k a : map_get l k = Some a -> In (k, a) l.
Proof.
  induction l as [|[k' a'] l IH]; cbn [map_get]; [discriminate|]. destruct (str_eqb k' k) eqn:E.
  - apply str_eqb_eq in E. subst. intros H. injection H as ->. now left.
  - intros H. right. auto.
Qed.
Lemma registered_keys : NoDup (keys registered).
Proof.
  apply (NoDup_count_occ' (list_eq_dec Z.eq_dec)). intros x I.
  assert (forallb (fun y => Nat.eqb (count_occ (list_eq_dec Z.eq_dec) (keys registered) y) 1) (keys registered) = true) as T by (vm_compute; reflexivity).
  rewrite forallb_forall in T. now apply Nat.eqb_eq, T.
Qed.
Lemma registered_inj n n' x : map_get registered n = Some x -> map_get registered n' = Some x -> n = n'.
Proof.
  intros H H'. apply map_get_in in H, H'.
  assert (forallb (fun p => forallb (fun q => negb (feature_eqb (snd p) (snd q)) || str_eqb (fst p) (fst q)) registered) registered = true) as T by (vm_compute; reflexivity).
  rewrite forallb_forall in T. specialize (T _ H). rewrite forallb_forall in T. specialize (T _ H'). cbn [fst snd] in T. apply orb_prop in T. destruct T as [T|T]; [|now apply str_eqb_eq].
  assert (feature_eqb x x = true) as R by (destruct x as [| | |[]| | |[]]; reflexivity). rewrite R in T. discriminate.
Qed.
Lemma features_once fiter names feats : (forall l, Permutation (fiter l) l) -> findFeatures fiter registered names = inl feats -> NoDup feats.
Proof.
  intros IT H. destruct (C42_selected _ _ _ _ _ IT registered_keys H) as (ns & S & _ & M).
  assert (NoDup ns) as N.
  { clear -S. induction S as [|a l S IH F]; constructor; auto. intros I. rewrite Forall_forall in F. specialize (F a I). now apply str_lt_irr in F. }
  pose proof registered_inj as INJ. revert M INJ. change (forall n n' x, map_get registered n = Some x -> map_get registered n' = Some x -> n = n') with (forall n n' x, (fun n => map_get registered n) n = Some x -> (fun n => map_get registered n) n' = Some x -> n = n'). generalize (fun n => map_get registered n). clear -N. intros g M INJ.
  assert (forall n n' x, g n = Some x -> g n' = Some x -> n = n') as GI by exact INJ. clear INJ.
  revert feats M. induction N as [|n ns H N IH]; intros [|x feats] M; try discriminate M; constructor.
  - injection M as M1 M2. intros I. apply H. assert (In (Some x) (map g ns)) as J by (rewrite M2; now apply in_map).
    apply in_map_iff in J. destruct J as (n' & J & K). now rewrite (GI n n' x).
  - apply IH. now injection M.
Qed.

Section Run.
Context (op : options) (iter : list (str * bool) -> list (str * bool)) (files : list gfile) (feats : list feature).
Hypothesis (W : op_wrap op = false) (OP : forall file, In file (filter fl_generate files) -> own_path file).
Let local := local_packages files.
Definition outs : list out := map (generateFile op iter local feats) (filter fl_generate files).
Definition pool (h : head) : bool := pooled op iter (Some h).

Lemma out_decls file : In file (filter fl_generate files) ->
  o_decls (generateFile op iter local feats file) = flat_map (fun feat => fst (GenerateFile op iter local (fl_import file) feat file)) feats.
Proof. intros I. unfold generateFile. rewrite W. cbn [o_decls]. induction feats as [|f l IH]; [reflexivity|]. cbn [map flat_map]. now rewrite IH. Qed.
Lemma out_names file s : In file (filter fl_generate files) ->
  In s (map d_sym (o_decls (generateFile op iter local feats file))) <-> exists feat, In feat feats /\ expected pool file feat s.
Proof.
  intros I. rewrite out_decls, map_flat_map, in_flat_map by auto. setoid_rewrite generate_expected; [reflexivity|auto|auto].
Qed.
Lemma out_skip file : In file (filter fl_generate files) ->
  o_skip (generateFile op iter local feats file) = true <-> op_allow_empty op = false /\ forall feat, In feat feats -> ~ has_work pool file feat.
Proof.
  intros I. unfold generateFile. cbn [o_skip]. rewrite andb_true_iff, !negb_true_iff. rewrite <- (not_true_iff_false (existsb snd _)), existsb_exists. split.
  - intros [H E]. split; auto. intros feat J K. apply H. eexists. split; [apply in_map; exact J|]. now apply generate_once.
  - intros [E H]. split; auto. intros (r & J & K). apply in_map_iff in J. destruct J as (feat & <- & J). apply (H feat J). now apply generate_once in K.
Qed.
Lemma expected_work file feat s : expected pool file feat s -> has_work pool file feat.
Proof.
  intros H. destruct H as [m n T D Q|m f o n T I O D|m T Q P|m T Q P|x I Q].
  - destruct feat; cbn [has_work]; eauto.
  - destruct feat; cbn [has_work]; eauto; contradiction.
  - subst. cbn. eauto.
  - subst. cbn. eauto.
  - subst. cbn. intros E. rewrite E in I. contradiction.
Qed.
Lemma expected_declared file feat s : In file (filter fl_generate files) -> In feat feats -> expected pool file feat s -> declared outs s.
Proof.
  intros I F E. left. assert (In s (map d_sym (o_decls (generateFile op iter local feats file)))) as J by (apply out_names; eauto).
  apply in_map_iff in J. destruct J as (d & <- & J). exists (generateFile op iter local feats file), d. split; auto. unfold written. apply filter_In. split; [now apply in_map|].
  apply negb_true_iff. apply not_true_iff_false. intros K. apply out_skip in K; auto. destruct K as [_ K]. apply (K feat F). eapply expected_work; eauto.
Qed.

(** * Uses *)
(** A message of a file of this run. *)
Definition generated (h : head) : Prop := exists file m, In file (filter fl_generate files) /\ has_type file m /\ g_head m = h.
Hypothesis (SIZE : forall strict, In (FMarshal strict) feats -> In FSize feats).
Hypothesis (POOL : forall file h, In file (filter fl_generate files) -> refers file h \/ (exists m, has_type file m /\ g_head m = h) -> pool h = true -> In FPool feats /\ generated h).
Hypothesis (LOCAL : forall file h, In file (filter fl_generate files) -> refers file h -> IsLocal local (h_pkg h) = true -> generated h /\ IsWellKnownType (Some h) = false).
Hypothesis (KNOWN : forall file m, In file (filter fl_generate files) -> has_type file m -> IsWellKnownType (Some (g_head m)) = false).

Definition good (u : option sym) : Prop := exists s, u = Some s /\ declared outs s.

Lemma method_declared h feat n : generated h -> In feat feats -> In n (documented feat) -> (feat = FPool -> pool h = true) -> declared outs (Method (h_ident h) (bytes n)).
Proof. intros (file & m & I & T & <-) F D P. eapply expected_declared; [exact I|exact F|]. now apply e_method. Qed.
Lemma known_get (l : list (str * goident)) k g : map_get l k = Some g -> existsb (fun p => id_eqb (snd p) g) l = true.
Proof.
  intros H. apply map_get_in in H. apply existsb_exists. exists (k, g). split; auto. unfold id_eqb. cbn [snd]. now rewrite !str_eqb_refl.
Qed.
Lemma shipped_method h n : map_get wellKnownTypes (h_full h) <> None -> IsLocal local (h_pkg h) = false ->
  existsb (fun x => str_eqb (bytes x) (bytes n)) ["CloneVT"; "EqualVT"; "MarshalVT"; "MarshalToVT"; "MarshalToSizedBufferVT"; "MarshalVTStrict"; "MarshalToVTStrict";
     "MarshalToSizedBufferVTStrict"; "SizeVT"; "UnmarshalVT"; "UnmarshalVTUnsafe"] = true ->
  forall cur, declared outs (Method (resolve cur (WellKnownTypeMap local h)) (bytes n)).
Proof.
  intros K L N cur. right. unfold WellKnownTypeMap. rewrite L. destruct (map_get wellKnownTypes (h_full h)) as [g|] eqn:E; [|contradiction].
  assert (resolve cur g = g) as ->.
  { apply map_get_in in E. unfold resolve. destruct (str_eqb (go_path g) []) eqn:Q; auto. exfalso.
    assert (forallb (fun p => negb (str_eqb (go_path (snd p)) [])) wellKnownTypes = true) as T by (vm_compute; reflexivity).
    rewrite forallb_forall in T. specialize (T _ E). cbn [snd] in T. rewrite Q in T. discriminate. }
  unfold shipped. rewrite (known_get _ _ _ E), N. reflexivity.
Qed.
(** A call of a method on a message another one refers to. *)
Lemma on_message_good file h n cur feat : In file (filter fl_generate files) -> refers file h -> In feat feats -> In n (documented feat) -> feat <> FPool -> n <> "CloneMessageVT" -> n <> "EqualMessageVT" ->
  Forall good (on_message local cur (Some h) n).
Proof.
  intros I R F D NP NC NE. unfold on_message. destruct (IsWellKnownType (Some h)) eqn:K.
  - constructor; [|constructor]. eexists. split; [reflexivity|]. apply shipped_method.
    + intros E. unfold IsWellKnownType in K. rewrite E in K. discriminate.
    + apply not_true_iff_false. intros L. destruct (LOCAL file h I R L) as [_ Q]. rewrite Q in K. discriminate.
    + destruct feat as [| | |[]| | |[]]; cbn [documented In] in D; repeat (destruct D as [<-|D]); try contradiction; vm_compute; reflexivity.
  - unfold IsLocalMessage. destruct (IsLocal local (h_pkg h)) eqn:L; [|constructor]. constructor; [|constructor]. eexists. split; [reflexivity|].
    destruct (LOCAL file h I R L) as [G _]. eapply method_declared; eauto.
Qed.
Lemma alloc_good file h : In file (filter fl_generate files) -> refers file h \/ (exists m, has_type file m /\ g_head m = h) -> Forall good (Alloc op iter (h_ident h) h).
Proof.
  intros I R. unfold Alloc. destruct (pooled op iter (Some h)) eqn:P; [|constructor]. constructor; [|constructor]. eexists. split; [reflexivity|].
  destruct (POOL file h I R P) as [F (file' & m & I' & T & E)]. eapply expected_declared; [exact I'|exact F|]. subst h. apply e_get; auto.
Qed.

Context (file : gfile) (m : gmsg).
Hypothesis (GF : In file (filter fl_generate files)) (T : has_type file m).
Let cur := fl_import file.
Lemma field_refers f h : In f (g_fields m) -> gf_msg f = Some h -> refers file h.
Proof. intros I E. left. exists m, f. auto. Qed.
Lemma field_good feat f n : In f (g_fields m) -> In feat feats -> In n (documented feat) -> feat <> FPool -> n <> "CloneMessageVT" -> n <> "EqualMessageVT" ->
  Forall good (on_message local cur (gf_msg f) n).
Proof.
  intros I F D NP NC NE. destruct (gf_msg f) as [h|] eqn:E; [|constructor]. eapply on_message_good; eauto. eapply field_refers; eauto.
Qed.
Lemma members_sub f : In f (members (g_fields m)) -> In f (g_fields m).
Proof. intros H. apply members_in in H. apply H. Qed.
Lemma body_good feat n : In feat feats -> In n (documented feat) -> feat <> FPool -> n <> "CloneMessageVT" -> n <> "EqualMessageVT" ->
  Forall good (body local cur (g_head m) (g_fields m) n).
Proof.
  intros F D NP NC NE. unfold body. rewrite (KNOWN file m GF T), app_nil_r. rewrite Forall_forall. intros u J. apply in_flat_map in J. destruct J as (f & J & K).
  unfold plain in J. apply filter_In in J. pose proof (field_good feat f n (proj1 J) F D NP NC NE) as Q. rewrite Forall_forall in Q. auto.
Qed.
Lemma own_good feat n : In feat feats -> In n (documented feat) -> (feat = FPool -> pool (g_head m) = true) -> good (Some (Method (h_ident (g_head m)) (bytes n))).
Proof. intros F D P. eexists. split; [reflexivity|]. eapply method_declared; eauto. exists file, m. auto. Qed.
Lemma wrapper_good feat n f : In feat feats -> In n (wrapper_documented feat) -> In f (members (g_fields m)) -> good (Some (Method (gf_ident f) (bytes n))).
Proof.
  intros F D I. apply members_in in I. destruct I as [I [o O]]. eexists. split; [reflexivity|]. eapply expected_declared; [exact GF|exact F|]. eapply e_wrapper; eauto.
Qed.
Lemma message_good feat d : In feat feats -> In d (message_decls op iter local cur feat (g_head m) (g_fields m)) -> Forall good (d_uses d).
Proof.
  intros F H. pose proof (own_type file (OP file GF) m T) as E.
  assert (forall f, In f (members (g_fields m)) -> here cur (go_name (gf_ident f)) = gf_ident f) as EF.
  { intros f I. eapply own_field; [apply OP; exact GF|exact T|now apply members_sub]. }
  assert (forall s, In (FMarshal s) feats -> In FSize feats) as SZ by exact SIZE.
  destruct feat as [| | |strict| | |unsafe]; cbn [message_decls] in H.
  - unfold clone_decls in H. rewrite W in H. fold cur in E. rewrite E in H. cbn [app] in H. destruct H as [<-|[<-|H]]; cbn [d_uses].
    + apply Forall_app. split; [apply (alloc_good file); auto; right; eauto|]. eapply body_good; [exact F|cbn; auto|discriminate..].
    + constructor; [|constructor]. eapply own_good; [exact F|cbn; auto|discriminate].
    + apply in_map_iff in H. destruct H as (f & <- & I). cbn [d_uses]. eapply field_good; [now apply members_sub|exact F|cbn; auto|discriminate..].
  - unfold equal_decls in H. rewrite W in H. fold cur in E. rewrite E in H. cbn [app] in H. destruct H as [<-|[<-|H]]; cbn [d_uses].
    + eapply body_good; [exact F|cbn; auto|discriminate..].
    + constructor; [|constructor]. eapply own_good; [exact F|cbn; auto|discriminate].
    + apply in_map_iff in H. destruct H as (f & <- & I). cbn [d_uses]. eapply field_good; [now apply members_sub|exact F|cbn; auto|discriminate..].
  - contradiction.
  - assert (In (methodMarshalToSizedBuffer strict) (documented (FMarshal strict))) as D by (destruct strict; cbn; auto).
    assert (In (methodMarshalToSizedBuffer strict) (wrapper_documented (FMarshal strict))) as D' by (destruct strict; cbn; auto).
    assert (methodMarshalToSizedBuffer strict <> "CloneMessageVT" /\ methodMarshalToSizedBuffer strict <> "EqualMessageVT") as [NC NE] by (destruct strict; split; discriminate).
    unfold marshal_decls in H. fold cur in E. rewrite E in H. rewrite in_app_iff in H. destruct H as [[<-|[<-|[<-|[]]]]|H]; cbn [d_uses].
    + constructor; [eapply own_good; [eapply SZ; exact F|cbn; auto|discriminate]|]. constructor; [eapply own_good; [exact F|exact D|discriminate]|constructor].
    + constructor; [eapply own_good; [eapply SZ; exact F|cbn; auto|discriminate]|]. constructor; [eapply own_good; [exact F|exact D|discriminate]|constructor].
    + assert (Forall good (body local cur (g_head m) (g_fields m) (methodMarshalToSizedBuffer strict))) as B by (eapply body_good; [exact F|exact D|discriminate|exact NC|exact NE]).
      destruct (strict && _); auto. apply Forall_app. split; auto. rewrite Forall_forall. intros u J. apply in_map_iff in J. destruct J as (f & <- & I). fold cur. rewrite (EF f I).
      eapply wrapper_good; eauto.
    + apply in_flat_map in H. destruct H as (f & I & [<-|[<-|[]]]); cbn [d_uses]; fold cur; rewrite ?(EF f I).
      * constructor; [eapply wrapper_good; [eapply SZ; exact F|cbn; auto|exact I]|]. constructor; [eapply wrapper_good; eauto|constructor].
      * eapply field_good; [now apply members_sub|exact F|exact D|discriminate|exact NC|exact NE].
  - unfold pool_decls in H. destruct (pooled op iter (Some (g_head m))) eqn:P; [|contradiction].
    assert (good (Some (vtprotoPool (h_ident (g_head m))))) as V. { eexists. split; [reflexivity|]. eapply expected_declared; [exact GF|exact F|]. apply e_pool; auto. }
    destruct H as [<-|[<-|[<-|[<-|[]]]]]; cbn [d_uses].
    + constructor.
    + rewrite Forall_forall. intros u J. apply in_flat_map in J. destruct J as (f & I & J). unfold pool_field in J. destruct (gf_msg f) as [h|] eqn:Q; [|contradiction].
      destruct (pooled op iter (Some h)) eqn:PH; cbn [andb] in J; [|contradiction]. destruct (negb (gf_map f)); [|contradiction]. destruct J as [<-|[]].
      destruct (POOL file h GF (or_introl (field_refers f h I Q)) PH) as [_ G]. eexists. split; [reflexivity|]. eapply method_declared; [exact G|exact F| |auto]. destruct (gf_list f); cbn; auto.
    + constructor; [eapply own_good; [exact F|cbn; auto|auto]|]. constructor; [exact V|constructor].
    + constructor; [exact V|constructor].
  - unfold size_decls in H. fold cur in E. destruct H as [<-|H]; cbn [d_uses].
    + eapply body_good; [exact F|cbn; auto|discriminate..].
    + apply in_map_iff in H. destruct H as (f & <- & I). cbn [d_uses]. eapply field_good; [now apply members_sub|exact F|cbn; auto|discriminate..].
  - assert (In (methodUnmarshal unsafe) (documented (FUnmarshal unsafe))) as D by (destruct unsafe; cbn; auto).
    assert (methodUnmarshal unsafe <> "CloneMessageVT" /\ methodUnmarshal unsafe <> "EqualMessageVT") as [NC NE] by (destruct unsafe; split; discriminate).
    destruct H as [<-|[]]. cbn [d_uses]. rewrite Forall_forall. intros u J. apply in_flat_map in J. destruct J as (f & I & J). unfold unmarshal_field in J. apply in_app_iff in J. destruct J as [J|J].
    + assert (Forall good (on_message local cur (gf_msg f) (methodUnmarshal unsafe))) as Q by (eapply field_good; [exact I|exact F|exact D|discriminate|exact NC|exact NE]).
      rewrite Forall_forall in Q. auto.
    + destruct (gf_msg f) as [h|] eqn:Q; [|contradiction]. destruct (_ && _); [|contradiction].
      pose proof (alloc_good file h GF (or_introl (field_refers f h I Q))) as A. rewrite Forall_forall in A. auto.
Qed.
End Run.
