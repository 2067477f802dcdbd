(** Facts about the run of the plugin (Driver.v), for C70-C72. *)
From Coq Require Import ZArith List Bool String Lia Permutation.
From Verif Require Import Base Generator GoRpc Driver DriverSpec.
Import ListNotations.
Open Scope string_scope.
Open Scope Z_scope.
Open Scope list_scope.

(** * Messages inside messages *)
Lemma gmsg_ind' (P : gmsg -> Prop) : (forall h e fs ns, Forall P ns -> P (GMsg h e fs ns)) -> forall m, P m.
Proof.
  intros H. fix IH 1. intros [h e fs ns]. apply H. induction ns as [|n ns IHn]; constructor; [apply IH|exact IHn].
Qed.
Lemma within_cons m n l : within m (n :: l) <-> within m [n] \/ within m l.
Proof.
  split.
  - intros H. inversion H as [? I|n' ? I W]; subst.
    + destruct I as [<-|I]; [left; apply w_here; now left|right; now apply w_here].
    + destruct I as [<-|I]; [left; eapply w_inside; [now left|auto]|right; eapply w_inside; eauto].
  - intros [H|H]; inversion H as [? I|n' ? I W]; subst.
    + destruct I as [<-|[]]. apply w_here. now left.
    + destruct I as [<-|[]]. eapply w_inside; [now left|auto].
    + apply w_here. now right.
    + eapply w_inside; [now right; eauto|auto].
Qed.
Lemma within_one m n : within m [n] <-> m = n \/ within m (g_nested n).
Proof.
  split.
  - intros H. inversion H as [? I|n' ? I W]; subst; destruct I as [<-|[]]; auto.
  - intros [->|H]; [apply w_here; now left|eapply w_inside; [now left|auto]].
Qed.
Lemma within_nil m : ~ within m [].
Proof. intros H. inversion H; contradiction. Qed.
Lemma in_real_one m : forall n, In m (real n) <-> within m [n] /\ g_entry m = false.
Proof.
  intros n. revert m. induction n as [h e fs ns IH] using gmsg_ind'. intros m. rewrite within_one. cbn [real g_nested]. rewrite in_app_iff.
  assert (In m (flat_map real ns) <-> within m ns /\ g_entry m = false) as ->.
  { induction IH as [|n ns Hn _ IHn]; cbn [flat_map].
    - split; [intros []|intros [H _]; now apply within_nil in H].
    - rewrite in_app_iff, (within_cons m n ns), Hn, IHn. tauto. }
  destruct e; cbn [In]; split.
  - intros [[H H']|[]]. auto.
  - intros [[->|H] H']; [discriminate H'|auto].
  - intros [[H H']|[<-|[]]]; auto.
  - intros [[->|H] H']; [auto|auto].
Qed.
Lemma in_real m l : In m (flat_map real l) <-> within m l /\ g_entry m = false.
Proof.
  induction l as [|n l IH]; cbn [flat_map].
  - split; [intros []|intros [H _]; now apply within_nil in H].
  - rewrite in_app_iff, (within_cons m n l), in_real_one, IH. tauto.
Qed.
Lemma has_type_in file m : has_type file m <-> In m (flat_map real (fl_msgs file)).
Proof. unfold has_type. now rewrite in_real. Qed.

Section File.
Context (op : options) (iter : list (str * bool) -> list (str * bool)) (local : list str) (cur : str).

Lemma feature_message_decls feat m :
  fst (feature_message op iter local cur feat m) = flat_map (fun x => message_decls op iter local cur feat (g_head x) (g_fields x)) (real m).
Proof.
  induction m as [h e fs ns IH] using gmsg_ind'. cbn [feature_message real].
  assert (fst (fold_right (fun n r => (fst (feature_message op iter local cur feat n) ++ fst r, snd (feature_message op iter local cur feat n) || snd r)) ([], false) ns)
    = flat_map (fun x => message_decls op iter local cur feat (g_head x) (g_fields x)) (flat_map real ns)) as E.
  { induction IH as [|n ns Hn _ IHn]; [reflexivity|]. cbn [fold_right fst flat_map]. rewrite flat_map_app, Hn, IHn. reflexivity. }
  rewrite flat_map_app, <- E. destruct e; [cbn [flat_map]; now rewrite app_nil_r|]. cbn [flat_map g_head g_fields]. rewrite app_nil_r. destruct feat; reflexivity.
Qed.
Lemma feature_message_once feat m :
  snd (feature_message op iter local cur feat m) = existsb (fun x => match feat with FPool => pooled op iter (Some (g_head x)) | _ => true end) (real m).
Proof.
  induction m as [h e fs ns IH] using gmsg_ind'. cbn [feature_message real].
  assert (snd (fold_right (fun n r => (fst (feature_message op iter local cur feat n) ++ fst r, snd (feature_message op iter local cur feat n) || snd r)) ([], false) ns)
    = existsb (fun x => match feat with FPool => pooled op iter (Some (g_head x)) | _ => true end) (flat_map real ns)) as E.
  { induction IH as [|n ns Hn _ IHn]; [reflexivity|]. cbn [fold_right snd flat_map]. rewrite existsb_app, Hn, IHn. reflexivity. }
  rewrite existsb_app, <- E. destruct e; [cbn [existsb]; now rewrite orb_false_r|]. cbn [existsb g_head]. rewrite orb_false_r.
  destruct feat; cbn [snd]; rewrite ?orb_true_r; reflexivity.
Qed.
Lemma generate_decls feat file : feat <> FGrpc ->
  fst (GenerateFile op iter local cur feat file) = flat_map (fun x => message_decls op iter local cur feat (g_head x) (g_fields x)) (flat_map real (fl_msgs file)).
Proof.
  intros N. assert (fst (fold_right (fun n r => (fst (feature_message op iter local cur feat n) ++ fst r, snd (feature_message op iter local cur feat n) || snd r)) ([], false) (fl_msgs file))
    = flat_map (fun x => message_decls op iter local cur feat (g_head x) (g_fields x)) (flat_map real (fl_msgs file))) as E.
  { induction (fl_msgs file) as [|n ns IHn]; [reflexivity|]. cbn [fold_right fst flat_map]. now rewrite flat_map_app, feature_message_decls, IHn. }
  unfold GenerateFile. destruct feat; auto. contradiction.
Qed.
Lemma generate_grpc file : fst (GenerateFile op iter local cur FGrpc file) = flat_map (grpc_decls op iter cur) (fl_services file).
Proof. unfold GenerateFile. destruct (fl_services file); reflexivity. Qed.
Lemma generate_once feat file : snd (GenerateFile op iter local cur feat file) = true <-> has_work (fun h => pooled op iter (Some h)) file feat.
Proof.
  assert (feat <> FGrpc -> snd (GenerateFile op iter local cur feat file)
    = existsb (fun x => match feat with FPool => pooled op iter (Some (g_head x)) | _ => true end) (flat_map real (fl_msgs file))) as E.
  { intros N. assert (snd (fold_right (fun n r => (fst (feature_message op iter local cur feat n) ++ fst r, snd (feature_message op iter local cur feat n) || snd r)) ([], false) (fl_msgs file))
      = existsb (fun x => match feat with FPool => pooled op iter (Some (g_head x)) | _ => true end) (flat_map real (fl_msgs file))) as E.
    { induction (fl_msgs file) as [|n ns IHn]; [reflexivity|]. cbn [fold_right snd flat_map]. now rewrite existsb_app, feature_message_once, IHn. }
    unfold GenerateFile. destruct feat; auto. contradiction. }
  destruct feat; try solve [rewrite E by discriminate; rewrite existsb_exists; unfold has_work; setoid_rewrite has_type_in; split; [intros (x & H & _); eauto|intros (x & H); eauto]].
  - unfold GenerateFile, has_work. destruct (fl_services file); cbn [snd]; split; intros H; try discriminate; auto; contradiction.
  - rewrite E by discriminate. rewrite existsb_exists. unfold has_work. setoid_rewrite has_type_in. reflexivity.
Qed.
End File.

(** * Names that are declared *)
Lemma members_in f l : In f (members l) <-> In f l /\ exists o, gf_oneof f = Some o.
Proof.
  unfold members. rewrite filter_In. unfold in_oneof. destruct (gf_oneof f) as [o|]; split.
  - intros [H _]. eauto.
  - intros [H _]. auto.
  - intros [_ H]. discriminate.
  - intros [_ [o H]]. discriminate.
Qed.

Section Declares.
Context (op : options) (iter : list (str * bool) -> list (str * bool)) (local : list str) (file : gfile).
Hypothesis (W : op_wrap op = false) (OP : own_path file).
Let cur := fl_import file.

Lemma own_type m : has_type file m -> here cur (h_name (g_head m)) = h_ident (g_head m).
Proof. intros H. destruct (OP m H) as [E _]. unfold here, h_name, cur. rewrite <- E. now destruct (h_ident (g_head m)). Qed.
Lemma own_field m f : has_type file m -> In f (g_fields m) -> here cur (go_name (gf_ident f)) = gf_ident f.
Proof. intros H I. destruct (OP m H) as [_ E]. unfold here, cur. rewrite <- (E f I). now destruct (gf_ident f). Qed.

(** The symbols of one message, feature by feature. *)
Definition names (feat : feature) (m : gmsg) : list sym :=
  let t := h_ident (g_head m) in
  match feat with
  | FGrpc => []
  | FPool => if pooled op iter (Some (g_head m)) then [vtprotoPool t; Method t (bytes "ResetVT"); Method t (bytes "ReturnToVTPool"); FromVTPool t] else []
  | _ => map (fun n => Method t (bytes n)) (documented feat)
         ++ flat_map (fun f => map (fun n => Method (gf_ident f) (bytes n)) (wrapper_documented feat)) (members (g_fields m))
  end.
Lemma map_flat_map {A B C} (g : B -> C) (f : A -> list B) l : map g (flat_map f l) = flat_map (fun x => map g (f x)) l.
Proof. induction l as [|a l IH]; [reflexivity|]. cbn [flat_map]. now rewrite map_app, IH. Qed.
Lemma flat_map_ext_in {A B} (f g : A -> list B) l : (forall x, In x l -> f x = g x) -> flat_map f l = flat_map g l.
Proof. intros H. induction l as [|a l IH]; [reflexivity|]. cbn [flat_map]. rewrite (H a) by now left. rewrite IH; [reflexivity|]. intros x I. apply H. now right. Qed.
Lemma flat_map_one {A B} (g : A -> B) l : flat_map (fun x => [g x]) l = map g l.
Proof. induction l as [|a l IH]; [reflexivity|]. cbn [flat_map map]. now rewrite IH. Qed.
Lemma message_names feat m : has_type file m ->
  map d_sym (message_decls op iter local cur feat (g_head m) (g_fields m)) = names feat m.
Proof.
  intros H. pose proof (own_type m H) as E.
  assert (forall f, In f (members (g_fields m)) -> here cur (go_name (gf_ident f)) = gf_ident f) as F.
  { intros f I. apply members_in in I. eapply own_field; [exact H|apply I]. }
  destruct feat as [| | |[]| | |[]]; cbn [message_decls names]; unfold clone_decls, equal_decls, marshal_decls, size_decls, unmarshal_decls, pool_decls;
    rewrite ?W, ?E; cbn [map d_sym app documented wrapper_documented]; rewrite ?map_app, ?map_map, ?map_flat_map; cbn [map d_sym app]; try reflexivity.
  - do 2 f_equal. rewrite flat_map_one. apply map_ext_in. intros f I. now rewrite (F f I).
  - do 2 f_equal. rewrite flat_map_one. apply map_ext_in. intros f I. now rewrite (F f I).
  - do 3 f_equal. apply flat_map_ext_in. intros f I. now rewrite (F f I).
  - do 3 f_equal. apply flat_map_ext_in. intros f I. now rewrite (F f I).
  - destruct (pooled op iter (Some (g_head m))); reflexivity.
  - f_equal. rewrite flat_map_one. apply map_ext_in. intros f I. rewrite (F f I). now destruct (_ && _).
  - cbn [methodUnmarshal]. f_equal. induction (members (g_fields m)) as [|a l IHl]; [reflexivity|]. exact (IHl (fun f I => F f (or_intror I))).
  - cbn [methodUnmarshal]. f_equal. induction (members (g_fields m)) as [|a l IHl]; [reflexivity|]. exact (IHl (fun f I => F f (or_intror I))).
Qed.
Lemma generate_names feat : feat <> FGrpc ->
  map d_sym (fst (GenerateFile op iter local cur feat file)) = flat_map (names feat) (flat_map real (fl_msgs file)).
Proof.
  intros N. rewrite generate_decls by auto. rewrite map_flat_map. apply flat_map_ext_in. intros m I. apply message_names. now apply has_type_in.
Qed.
Lemma names_in s feat m : feat <> FGrpc -> In s (names feat m) <->
  (exists n, In n (documented feat) /\ (feat = FPool -> pooled op iter (Some (g_head m)) = true) /\ s = Method (h_ident (g_head m)) (bytes n))
  \/ (exists f o n, In f (g_fields m) /\ gf_oneof f = Some o /\ In n (wrapper_documented feat) /\ s = Method (gf_ident f) (bytes n))
  \/ (feat = FPool /\ pooled op iter (Some (g_head m)) = true /\ (s = FromVTPool (h_ident (g_head m)) \/ s = vtprotoPool (h_ident (g_head m)))).
Proof.
  intros N. assert (feat <> FPool -> In s (names feat m) <->
    (exists n, In n (documented feat) /\ s = Method (h_ident (g_head m)) (bytes n))
    \/ (exists f o n, In f (g_fields m) /\ gf_oneof f = Some o /\ In n (wrapper_documented feat) /\ s = Method (gf_ident f) (bytes n))) as P.
  { intros NP. assert (names feat m = map (fun n => Method (h_ident (g_head m)) (bytes n)) (documented feat)
       ++ flat_map (fun f => map (fun n => Method (gf_ident f) (bytes n)) (wrapper_documented feat)) (members (g_fields m))) as -> by (destruct feat; try contradiction; reflexivity).
    rewrite in_app_iff, in_map_iff, in_flat_map. setoid_rewrite in_map_iff. setoid_rewrite members_in. split.
    - intros [(n & <- & H)|(f & (H & o & H') & n & <- & I)]; [left; eauto|right; exists f, o, n; auto].
    - intros [(n & H & ->)|(f & o & n & H & H' & I & ->)]; [left; eauto|right; exists f; split; eauto]. }
  destruct feat; try contradiction; try (rewrite P by discriminate; split;
    [intros [(n & H & ->)|H]; [left; exists n; repeat split; auto; discriminate|auto]|intros [(n & H & _ & ->)|[H|(H & _)]]; [left; eauto|auto|discriminate]]).
  cbn [names documented wrapper_documented]. destruct (pooled op iter (Some (g_head m))) eqn:Q; split.
  - cbn [In]. intros [<-|[<-|[<-|[<-|[]]]]]; [right; right; auto| | |right; right; auto].
    + left. exists "ResetVT". cbn [In]. auto.
    + left. exists "ReturnToVTPool". cbn [In]. auto.
  - cbn [In]. intros [(n & [<-|[<-|[]]] & _ & ->)|[(f & o & n & _ & _ & [] & _)|(_ & _ & [->| ->])]]; auto.
  - intros [].
  - intros [(n & _ & H & _)|[(f & o & n & _ & _ & [] & _)|(_ & H & _)]]; [specialize (H eq_refl)|]; discriminate.
Qed.
Lemma generate_expected feat s :
  In s (map d_sym (fst (GenerateFile op iter local cur feat file))) <-> expected (fun h => pooled op iter (Some h)) file feat s.
Proof.
  assert (feat = FGrpc \/ feat <> FGrpc) as [->|N] by (destruct feat; auto; right; discriminate).
  - rewrite generate_grpc, map_flat_map, in_flat_map. split.
    + intros (x & H & [<-|[]]). now apply (e_service _ _ _ x).
    + intros H. inversion H; subst; try contradiction; try discriminate. exists s0. split; auto. now left.
  - rewrite generate_names, in_flat_map by auto. setoid_rewrite names_in; [|auto]. setoid_rewrite <- has_type_in. split.
    + intros (m & H & [(n & I & Q & ->)|[(f & o & n & I & O & D & ->)|(-> & Q & [->| ->])]]).
      * now apply e_method.
      * eapply e_wrapper; eauto.
      * now apply e_get.
      * now apply e_pool.
    + intros H. inversion H as [m n T D Q|m f o n T I O D|m T Q P|m T Q P|x I Q]; subst; try contradiction.
      * exists m. split; auto. left. eauto.
      * exists m. split; auto. right. left. exists f, o, n. auto.
      * exists m. split; auto. right. right. auto.
      * exists m. split; auto. right. right. auto.
Qed.
End Declares.

(** * Every name once *)
Lemma NoDup_app_intro {A} (l l' : list A) : NoDup l -> NoDup l' -> (forall x, In x l -> In x l' -> False) -> NoDup (l ++ l').
Proof.
  intros N N' D. induction N as [|a l H N IH]; [exact N'|]. cbn [app]. constructor.
  - rewrite in_app_iff. intros [I|I]; [auto|]. apply (D a); [now left|auto].
  - apply IH. intros x I. apply D. now right.
Qed.
Lemma NoDup_app_inv {A} (l l' : list A) : NoDup (l ++ l') -> NoDup l /\ NoDup l' /\ forall x, In x l -> In x l' -> False.
Proof.
  induction l as [|a l IH]; cbn [app]; intros H.
  - split; [constructor|]. split; auto.
  - inversion H as [|? ? H1 H2]; subst. destruct (IH H2) as (N & N' & D). split; [|split; auto].
    + constructor; auto. intros I. apply H1, in_app_iff. auto.
    + intros x [<-|I] J; [apply H1, in_app_iff; auto|eauto].
Qed.
Lemma NoDup_owned {A S K} (f : A -> list S) (g : A -> list K) (owns : K -> S -> Prop) l :
  (forall k k' s, owns k s -> owns k' s -> k = k') ->
  (forall x s, In x l -> In s (f x) -> exists k, In k (g x) /\ owns k s) ->
  (forall x, In x l -> NoDup (f x)) -> NoDup (flat_map g l) -> NoDup (flat_map f l).
Proof.
  intros U O N. induction l as [|a l IH]; cbn [flat_map]; intros H; [constructor|]. apply NoDup_app_inv in H. destruct H as (_ & H & D). apply NoDup_app_intro.
  - apply N. now left.
  - apply IH; auto; intros; [eapply O; eauto; now right|apply N; now right].
  - intros s I J. apply in_flat_map in J. destruct J as (x & J & K'). destruct (O a s (or_introl eq_refl) I) as (k & I1 & I2). destruct (O x s (or_intror J) K') as (k' & J1 & J2).
    apply (D k); auto. rewrite (U k k' s) by auto. apply in_flat_map. eauto.
Qed.
Lemma NoDup_flat_in {A B} (f : A -> list B) l x : NoDup (flat_map f l) -> In x l -> NoDup (f x).
Proof.
  induction l as [|a l IH]; cbn [flat_map In]; intros H I; [contradiction|]. apply NoDup_app_inv in H. destruct I as [->|I]; [apply H|apply IH; [apply H|auto]].
Qed.

(** The type a name belongs to. *)
Definition owns (t : goident) (s : sym) : Prop :=
  exported t /\ ((exists n, s = Method t n) \/ s = FromVTPool t \/ s = vtprotoPool t).
Lemma pool_names_differ t t' : exported t -> FromVTPool t <> vtprotoPool t'.
Proof.
  unfold exported, FromVTPool, vtprotoPool. intros E H. destruct (go_name t) as [|c n]; [contradiction|]. injection H as H _ _. vm_compute in H. subst c. lia.
Qed.
Lemma owns_one t t' s : owns t s -> owns t' s -> t = t'.
Proof.
  assert (forall a b : goident, go_name a = go_name b -> go_path a = go_path b -> a = b) as X by (intros [] []; cbn; intros -> ->; reflexivity).
  intros [E H] [E' H']. destruct H as [[n ->]|[->| ->]]; destruct H' as [[n' H']|[H'|H']]; try discriminate H'.
  - now injection H'.
  - unfold FromVTPool in H'. injection H' as H1 H2. apply X; auto. eapply app_inv_tail. exact H1.
  - now apply pool_names_differ in H'.
  - symmetry in H'. now apply pool_names_differ in H'.
  - unfold vtprotoPool in H'. injection H' as H1 H2. apply X; auto.
Qed.

(** The feature a name belongs to. *)
Definition made_by (feat : feature) (s : sym) : Prop :=
  match s with
  | Method _ n => In n (map bytes (documented feat ++ wrapper_documented feat))
  | Func g => (feat = FGrpc /\ exists x, go_name g = bytes "New" ++ x ++ bytes "Client")
              \/ (feat = FPool /\ exists t, exported t /\ (s = FromVTPool t \/ s = vtprotoPool t))
  end.
Lemma last_app {A} (a b : list A) d d' x : b = x ++ [d] -> last (a ++ b) d' = d.
Proof. intros ->. rewrite app_assoc. apply last_last. Qed.
Lemma new_not_pool x t : exported t -> bytes "New" ++ x ++ bytes "Client" <> go_name t ++ bytes "FromVTPool" /\ bytes "New" ++ x ++ bytes "Client" <> bytes "vtprotoPool_" ++ go_name t.
Proof.
  intros E. split; intros H.
  - apply (f_equal (fun l => last l 0)) in H. rewrite app_assoc in H.
    rewrite (last_app _ (bytes "Client") 116 0 (bytes "Clien")), (last_app _ (bytes "FromVTPool") 108 0 (bytes "FromVTPoo")) in H by reflexivity. discriminate.
  - vm_compute in H. discriminate.
Qed.
Definition feature_eqb (a b : feature) : bool :=
  match a, b with
  | FClone, FClone | FEqual, FEqual | FGrpc, FGrpc | FPool, FPool | FSize, FSize => true
  | FMarshal x, FMarshal y | FUnmarshal x, FUnmarshal y => Bool.eqb x y
  | _, _ => false
  end.
Definition all_features : list feature := [FClone; FEqual; FGrpc; FMarshal false; FMarshal true; FPool; FSize; FUnmarshal false; FUnmarshal true].
Lemma str_eqb_refl s : str_eqb s s = true.
Proof. unfold str_eqb. destruct (list_eq_dec Z.eq_dec s s); congruence. Qed.
Lemma str_eqb_eq a b : str_eqb a b = true <-> a = b.
Proof. unfold str_eqb. destruct (list_eq_dec Z.eq_dec a b); split; congruence. Qed.
Lemma methods_disjoint feat feat' n :
  In n (map bytes (documented feat ++ wrapper_documented feat)) -> In n (map bytes (documented feat' ++ wrapper_documented feat')) -> feat = feat'.
Proof.
  intros H H'.
  assert (forallb (fun a => forallb (fun b => feature_eqb a b || negb (existsb (fun x => existsb (str_eqb x) (map bytes (documented b ++ wrapper_documented b))) (map bytes (documented a ++ wrapper_documented a)))) all_features) all_features = true) as T by (vm_compute; reflexivity).
  assert (forall f, In f all_features) as AF by (intros [| | |[]| | |[]]; cbn; tauto).
  rewrite forallb_forall in T. specialize (T feat (AF _)). rewrite forallb_forall in T. specialize (T feat' (AF _)). apply orb_prop in T. destruct T as [T|T].
  - destruct feat as [| | |[]| | |[]], feat' as [| | |[]| | |[]]; try discriminate T; reflexivity.
  - exfalso. apply negb_true_iff in T. rewrite <- not_true_iff_false in T. apply T. apply existsb_exists. exists n. split; auto. apply existsb_exists. exists n. split; auto. apply str_eqb_refl.
Qed.
Lemma made_by_one feat feat' s : made_by feat s -> made_by feat' s -> feat = feat'.
Proof.
  destruct s as [t n|g]; cbn [made_by]; [apply methods_disjoint|].
  assert (forall t, exported t -> (exists x, go_name g = bytes "New" ++ x ++ bytes "Client") -> (Func g = FromVTPool t \/ Func g = vtprotoPool t) -> False) as D.
  { intros t E [x H] [K|K]; destruct (new_not_pool x t E) as [D1 D2]; injection K as ->; cbn [go_name] in H; auto. }
  intros [[-> H]|[-> (t & E & H)]] [[-> H']|[-> (t' & E' & H')]]; auto; exfalso; eauto.
Qed.

Section Once.
Context (op : options) (iter : list (str * bool) -> list (str * bool)).
Lemma names_owned feat m s : Forall exported (types_of m) -> In s (names op iter feat m) -> exists t, In t (types_of m) /\ owns t s.
Proof.
  intros E H. rewrite Forall_forall in E. assert (feat <> FGrpc) as N by (intros ->; contradiction). apply names_in in H; [|auto].
  destruct H as [(n & _ & _ & ->)|[(f & o & n & I & O & _ & ->)|(_ & _ & H)]].
  - exists (h_ident (g_head m)). split; [now left|]. split; [apply E; now left|eauto].
  - assert (In (gf_ident f) (types_of m)) as J. { right. apply in_map. apply members_in. eauto. } exists (gf_ident f). split; auto. split; [now apply E|eauto].
  - exists (h_ident (g_head m)). split; [now left|]. split; [apply E; now left|]. tauto.
Qed.
Lemma names_made feat m s : exported (h_ident (g_head m)) -> In s (names op iter feat m) -> made_by feat s.
Proof.
  intros E H. assert (feat <> FGrpc) as N by (intros ->; contradiction). apply names_in in H; [|auto].
  destruct H as [(n & I & _ & ->)|[(f & o & n & _ & _ & I & ->)|(-> & _ & H)]]; cbn [made_by].
  - apply in_map. apply in_app_iff. auto.
  - apply in_map. apply in_app_iff. auto.
  - assert (made_by FPool s) as M; [|destruct s; exact M]. destruct H as [->| ->]; cbn [made_by FromVTPool vtprotoPool]; right; split; auto; eexists; split; [exact E| |exact E|]; auto.
Qed.
Lemma names_nodup feat m : NoDup (types_of m) -> Forall exported (types_of m) -> NoDup (names op iter feat m).
Proof.
  intros N E. set (t := h_ident (g_head m)).
  assert (forall l, NoDup (map bytes l) -> forall t, NoDup (map (fun n => Method t (bytes n)) l)) as ND.
  { intros l H t'. rewrite <- (map_map bytes (Method t')). apply FinFun.Injective_map_NoDup; auto. intros a b Q. now injection Q. }
  assert (forall l, forallb (fun x => Nat.eqb (count_occ (list_eq_dec Z.eq_dec) l x) 1) l = true -> NoDup l) as CO.
  { intros l H. rewrite forallb_forall in H. apply (NoDup_count_occ' (list_eq_dec Z.eq_dec)). intros x I. now apply Nat.eqb_eq, H. }
  assert (NoDup (map bytes (documented feat))) as D1 by (apply CO; destruct feat as [| | |[]| | |[]]; vm_compute; reflexivity).
  assert (NoDup (map bytes (wrapper_documented feat))) as D2 by (apply CO; destruct feat as [| | |[]| | |[]]; vm_compute; reflexivity).
  assert (NoDup (map (fun n => Method t (bytes n)) (documented feat)
         ++ flat_map (fun f => map (fun n => Method (gf_ident f) (bytes n)) (wrapper_documented feat)) (members (g_fields m)))) as P.
  { unfold types_of in N. inversion N as [|? ? N1 N2]; subst. apply NoDup_app_intro.
    - now apply ND.
    - apply (NoDup_owned _ (fun f => [gf_ident f]) (fun t s => exists n, s = Method t n)).
      + intros k k' s [n ->] [n' H]. now injection H.
      + intros f s I J. apply in_map_iff in J. destruct J as (n & <- & _). exists (gf_ident f). split; [now left|eauto].
      + intros f I. now apply ND.
      + now rewrite flat_map_one.
    - intros s I J. apply in_map_iff in I. destruct I as (n & <- & _). apply in_flat_map in J. destruct J as (f & J & K). apply in_map_iff in K. destruct K as (n' & K & _). injection K as K _.
      apply N1. unfold t in K. rewrite <- K. now apply in_map. }
  destruct feat; try exact P; cbn [names]; [constructor|].
  destruct (pooled op iter (Some (g_head m))); [|constructor]. fold t. assert (exported t) as ET by (inversion E; auto).
  repeat constructor; cbn [In]; try (intros [H|[H|[H|[]]]] || intros [H|[H|[]]] || intros [H|[]] || intros []); try discriminate H.
  now apply pool_names_differ in H.
Qed.
Lemma file_names_owned feat file s : Forall exported (file_types file) -> In s (flat_map (names op iter feat) (flat_map real (fl_msgs file))) ->
  made_by feat s /\ exists t, In t (file_types file) /\ owns t s.
Proof.
  intros E H. apply in_flat_map in H. destruct H as (m & I & H). assert (Forall exported (types_of m)) as EM.
  { rewrite Forall_forall in *. intros t J. apply E. apply in_flat_map. eauto. }
  split; [apply (names_made feat m); auto; inversion EM; auto|]. destruct (names_owned feat m s EM H) as (t & J & K). exists t. split; auto. apply in_flat_map. eauto.
Qed.
Lemma file_names_nodup feat file : NoDup (file_types file) -> Forall exported (file_types file) ->
  NoDup (flat_map (names op iter feat) (flat_map real (fl_msgs file))).
Proof.
  intros N E. assert (forall m, In m (flat_map real (fl_msgs file)) -> Forall exported (types_of m)) as EM.
  { intros m I. rewrite Forall_forall in *. intros t J. apply E. apply in_flat_map. eauto. }
  apply (NoDup_owned _ types_of owns); auto.
  - apply owns_one.
  - intros m s I H. apply (names_owned feat m s); auto.
  - intros m I. apply names_nodup; auto. eapply NoDup_flat_in; eauto.
Qed.
End Once.
