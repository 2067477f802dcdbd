(** Two runs of UnmarshalVT on the same input give corresponding results. *)
From Coq Require Import ZArith List Bool Lia.
From Verif Require Import Base BaseFacts Schema Value Helpers Unmarshal Clone Pool WireSpec Typing MsgSpec DecodeSpec ContentSpec PoolSpec
  ViewFacts TargetFacts SameFacts EqualRel RunRel.
Import ListNotations.
Open Scope Z_scope.

(** Corresponding outcomes. *)
Definition rr {P P' A B} (E : P -> P' -> Prop) (Q : A -> B -> Prop) (r : res P A) (r' : res P' B) : Prop :=
  match r, r' with
  | Ok a, Ok b => Q a b
  | Err e p, Err e' p' => e = e' /\ E p p'
  | Panic, Panic => True
  | NoFuel, NoFuel => True
  | _, _ => False
  end.
Lemma rr_bind {P P' A B A2 B2} (E : P -> P' -> Prop) (Q : A -> B -> Prop) (Q2 : A2 -> B2 -> Prop) r r' k k' :
  rr E Q r r' -> (forall a b, Q a b -> rr E Q2 (k a) (k' b)) -> rr E Q2 (rbind r k) (rbind r' k').
Proof. destruct r, r'; cbn; try tauto. intros H K. now apply K. Qed.
Lemma rr_lift {P P' A} (E : P -> P' -> Prop) p p' (r : res unit A) : E p p' -> rr E eq (lift p r) (lift p' r).
Proof. intros H. destruct r; cbn; auto. Qed.
Lemma rr_orpanic {P P' A B} (E : P -> P' -> Prop) (Q : A -> B -> Prop) o o' :
  match o, o' with Some a, Some b => Q a b | None, None => True | _, _ => False end -> rr E Q (orpanic o) (orpanic o').
Proof. destruct o, o'; cbn; auto. Qed.
Lemma rr_same {P P' A} (E : P -> P' -> Prop) (o : option A) : rr E eq (orpanic o) (orpanic o).
Proof. destruct o; cbn; auto. Qed.
Lemma rr_eq {A} (r : res unit A) : rr (fun _ _ => True) eq r r.
Proof. destruct r; cbn; auto. Qed.
Lemma rr_weaken {P P' A B} (E E2 : P -> P' -> Prop) (Q Q2 : A -> B -> Prop) r r' :
  (forall a b, E a b -> E2 a b) -> (forall a b, Q a b -> Q2 a b) -> rr E Q r r' -> rr E2 Q2 r r'.
Proof. intros H K. destruct r, r'; cbn; auto. intros [? ?]; auto. Qed.

Lemma rr_drop {P P' A B} (E : P -> P' -> Prop) (E2 : A -> B -> Prop) (Q : A -> B -> Prop) (p : P) (p' : P') r r' : rr E2 Q r r' -> E p p' -> rr E Q (drop_state p r) (drop_state p' r').
Proof. destruct r, r'; cbn; auto. intros [-> _]; auto. Qed.

Section Run.
Variable sc : schema.
Hypothesis W : wf_schema sc = true.
Hypothesis UD : up_dec_ok sc.
Variable okt : kind -> val -> Prop.
Variable kept : nat -> Prop.
Hypothesis OS : okt KString (VStr []).
Hypothesis OB : okt KBytes VNil.
Notation rv := (rv sc okt kept). Notation rs := (rs sc okt kept). Notation rf := (rf sc okt kept). Notation rm := (rm sc okt kept).
(** Extension records: upstream resets the message and leaves no spare capacity. *)
Hypothesis UX : forall m bs v, md_foreign (md_of sc m) = false -> up_ext (sc_up sc) m bs = Some v -> rm m v v.

Variable rec : Z -> nat -> list Z -> val -> res val val.
Variable rec' : Z -> nat -> list Z -> val -> res val val.
Variable env : uenv.
(** The input of this call; [zat i s]: the bytes [s] are found at [i]. *)
Variable D : list Z.
Definition zat (i : Z) (s : list Z) : Prop := exists j, zslice D i j = Some s.
Hypothesis RC : forall i m buf x y, zat i buf -> md_foreign (md_of sc m) = false -> rs m x y -> rr (rs m) (rs m) (rec i m buf x) (rec' i m buf y).
Hypothesis EA : forall i m, md_pool (md_of sc m) = true -> rs m (ue_alloc env i m) (new_msg (md_of sc m)).
Hypothesis ES : forall i s, zat i s -> okt KString (ue_str env i s) /\ vbytes (ue_str env i s) = s.
Hypothesis EB : forall i s, zat i s -> okt KBytes (ue_bytes env i s) /\ vbytes (ue_bytes env i s) = s /\ ue_bytes env i s <> VNil.
Notation env' := (safe_env sc).
Lemma rr_slice {P P'} (E : P -> P' -> Prop) i j : rr E (fun s s' => s = s' /\ zat i s) (orpanic (zslice D i j)) (orpanic (zslice D i j)).
Proof. destruct (zslice D i j) eqn:Z0; cbn; auto. split; [reflexivity|]. now exists j. Qed.

Lemma decodeMessage_rr i m buf x y : zat i buf -> rs m x y -> rr (rs m) (rs m) (decodeMessage sc rec i m buf x) (decodeMessage sc rec' i m buf y).
Proof.
  intros Zt R. unfold decodeMessage. destruct (md_foreign (md_of sc m)) eqn:F; [|now apply RC].
  pose proof (rs_nil_iff sc okt kept m x y R) as NI.
  assert (forall v, v <> VNil -> match v with VNil => Panic | _ => match up_dec (sc_up sc) m buf with Some v0 => Ok v0 | None => Err EUpstream v end end
    = match up_dec (sc_up sc) m buf with Some v0 => Ok v0 | None => Err EUpstream v end) as Sh by (intros [] Nv; congruence || reflexivity).
  assert ({x = VNil} + {x <> VNil}) as [Ex|Ex] by (destruct x; auto; right; discriminate).
  - assert (y = VNil) as -> by tauto. subst. exact I.
  - rewrite (Sh x Ex), (Sh y) by tauto. destruct (up_dec (sc_up sc) m buf) as [v|] eqn:U; cbn; auto.
    pose proof (up_dec_wt sc UD m buf v F U) as [T _]. now apply rs_up.
Qed.

Lemma rv_str i s : zat i s -> rv KString (ue_str env i s) (VStr s).
Proof. intros Zt. destruct (ES i s Zt) as [A B]. apply rv_text; auto. split; [eauto|discriminate]. Qed.
Lemma rv_bytes i s : zat i s -> rv KBytes (ue_bytes env i s) (VBytes s).
Proof. intros Zt. destruct (EB i s Zt) as (A & B & _). apply rv_text; auto. split; [discriminate|]. right. eauto. Qed.

Section Level.
Variable m : nat.
Hypothesis ML : md_foreign (md_of sc m) = false.
Let md := md_of sc m.
Notation RS := (rs m). Notation rf := (rf m).
Definition RSZ (a b : val * Z) : Prop := rs m (fst a) (fst b) /\ snd a = snd b.

Lemma rs_local a b : RS a b -> (a = VNil /\ b = VNil) \/ exists s u h s' h', a = VMsg s u h /\ b = VMsg s' u h' /\ rm m a b.
Proof.
  intros H. inversion H as [|? ? ? F|? ? ? F R]; subst; [auto|congruence|]. right.
  destruct (rm_vmsg sc okt kept m a b R) as (s & u & h & s' & h' & -> & ->). exists s, u, h, s', h'. auto.
Qed.

Lemma set_rr a b f x y : RS a b -> In f (md_fields md) -> rf f x y ->
  (is_oneof f = true -> exists p q, x = VOneof (f_num f) p /\ y = VOneof (f_num f) q) ->
  match set_slot a (f_slot f) x, set_slot b (f_slot f) y with Some a', Some b' => RS a' b' | None, None => True | _, _ => False end.
Proof.
  intros H Hf R O. destruct (rs_local a b H) as [[-> ->]|(s & u & h & s' & h' & -> & -> & M)]; cbn; auto.
  apply rs_msg; [exact ML|]. now apply rm_set.
Qed.
Lemma get_rr a b f : RS a b -> In f (md_fields md) ->
  match get_slot a (f_slot f), get_slot b (f_slot f) with Some x, Some y => rf f x y | None, None => True | _, _ => False end.
Proof.
  intros H Hf. destruct (rs_local a b H) as [[-> ->]|(s & u & h & s' & h' & -> & -> & M)]; cbn; auto.
  inversion M; subst. auto.
Qed.

Lemma not_one f lbl k : f_ty f = TField lbl k -> lbl <> LOneof -> is_oneof f = true -> False.
Proof. intros T N O. unfold is_oneof in O. rewrite T in O. destruct lbl; congruence. Qed.
Lemma app_list f p k x y a b : f_ty f = TField (LRepeated p) k -> rf f a b -> rv k x y -> rf f (VList (vlist a ++ [x])) (VList (vlist b ++ [y])).
Proof.
  intros T H V. eapply rf_list; eauto. cbn [vlist].
  assert (Forall2 (rv k) (vlist a) (vlist b)) as F.
  { inversion H as [? ? ? ? ? T0 X|? ? ? ? T0 L|? ? ? T0 L K|? ? ? ? ? ? T0 L K X|? ? ? ? ? ? T0 L K1 K2 Na Nb X|? ? ? ? ? ? T0 Sa Sb X|? ? ? ? ? ? T0 Sa Sb X|? ? ? T0|? ? ? ? ? ? T0 Nn|? ? ? ? ? T0 X]; subst; rewrite T in T0; try discriminate;
      try (destruct L; subst; discriminate). injection T0 as <- <-. exact X. }
  apply Forall2_app; auto.
Qed.

Lemma store_rr f lbl k x y a b : In f (md_fields md) -> f_ty f = TField lbl k -> sub_of k = None -> RS a b -> rv k x y -> (k = KBytes -> x <> VNil /\ y <> VNil) ->
  match store f lbl k x a, store f lbl k y b with Some a', Some b' => RS a' b' | None, None => True | _, _ => False end.
Proof.
  intros Hf T S R V NB. unfold store. pose proof (get_rr a b f R Hf) as G.
  assert (forall l, l = LOptional \/ l = LRequired -> lbl = l ->
    match set_slot a (f_slot f) (match classify k with CByt => x | _ => VPtr x end), set_slot b (f_slot f) (match classify k with CByt => y | _ => VPtr y end) with Some a', Some b' => RS a' b' | None, None => True | _, _ => False end) as OPT.
  { intros l L ->. apply set_rr; auto; [|intros O; exfalso; apply (not_one f l k T); auto; destruct L; subst; discriminate].
    assert (k = KBytes \/ (is_num k = true \/ k = KString)) as [->|K] by (destruct k; auto; discriminate).
    - cbn [classify]. destruct NB as [Nx Ny]; auto. eapply rf_direct; eauto. discriminate.
    - replace (match classify k with CByt => x | _ => VPtr x end) with (VPtr x) by (destruct K as [K| ->]; [destruct k; discriminate || reflexivity|reflexivity]).
      replace (match classify k with CByt => y | _ => VPtr y end) with (VPtr y) by (destruct K as [K| ->]; [destruct k; discriminate || reflexivity|reflexivity]).
      eapply rf_ptr; eauto. }
  destruct lbl; try (apply (OPT LOptional); auto; fail); try (apply (OPT LRequired); auto; fail).
  - apply set_rr; auto; [eapply rf_implicit; eauto|]. intros O. exfalso. apply (not_one f _ k T); auto. discriminate.
  - destruct (get_slot a (f_slot f)) as [va|], (get_slot b (f_slot f)) as [vb|]; try contradiction; auto.
    apply set_rr; auto; [eapply app_list; eauto|]. intros O. exfalso. apply (not_one f _ k T); auto. discriminate.
  - apply set_rr; auto; [eapply rf_member; eauto|]. eauto.
Qed.

(** * Maps *)
Lemma rv_vint k cx cy : is_num k = true -> rv k cx cy -> vint cx = vint cy.
Proof. intros N H. inversion H as [|? ? ? K|? ? ? ? S]; subst; [reflexivity|destruct K; subst; discriminate|destruct k; discriminate]. Qed.
Definition RVZ (k : kind) (a b : val * Z) : Prop := rv k (fst a) (fst b) /\ snd a = snd b.
Lemma mapField_rr k cx cy i : rv k cx cy -> rr (fun _ _ => True) (RVZ k) (mapField sc rec env k cx D i) (mapField sc rec' env' k cy D i).
Proof.
  intros R. unfold mapField. destruct (sub_of k) as [m'|] eqn:S.
  - destruct k; try discriminate; cbn [classify].
    + split; [exact R|reflexivity].
    + injection S as ->. eapply rr_bind; [apply rr_eq|]. intros [i1 post] _ <-. eapply rr_bind; [apply rr_slice|]. intros s _ [<- Zt].
      eapply rr_bind with (Q := rs m').
      * pose proof (decodeMessage_rr i1 m' s _ _ Zt (rs_new sc okt kept W m' OS OB)) as DM. destruct (decodeMessage sc rec _ _ _ _), (decodeMessage sc rec' _ _ _ _); cbn in *; try tauto.
      * intros a b Hab. split; [eapply rv_sub; eauto; reflexivity|reflexivity].
  - assert (is_num k = true \/ k = KString \/ k = KBytes) as [N|[->| ->]] by (destruct k; auto; discriminate).
    + assert (vint cx = vint cy) as E by now apply (rv_vint k).
      replace (mapField sc rec env k cx D i) with (do r <- decodeNumber k (vint cx) D i; Ok (VInt (fst r), snd r) : res unit (val * Z)) by (destruct k; try discriminate; reflexivity).
      replace (match classify k with CStr => _ | _ => _ end) with (do r <- decodeNumber k (vint cx) D i; Ok (VInt (fst r), snd r) : res unit (val * Z)) by (destruct k; try discriminate; reflexivity).
      replace (match classify k with CStr => _ | _ => _ end) with (do r <- decodeNumber k (vint cy) D i; Ok (VInt (fst r), snd r) : res unit (val * Z)) by (destruct k; try discriminate; reflexivity).
      rewrite E. eapply rr_bind; [apply rr_eq|]. intros [z j] _ <-. split; [now apply rv_num|reflexivity].
    + cbn [classify]. eapply rr_bind; [apply rr_eq|]. intros [i1 post] _ <-. eapply rr_bind; [apply rr_slice|]. intros s _ [<- Zt].
      split; [now apply rv_str|reflexivity].
    + cbn [classify]. eapply rr_bind; [apply rr_eq|]. intros [i1 post] _ <-. eapply rr_bind; [apply rr_slice|]. intros s _ [<- Zt].
      split; [now apply rv_bytes|reflexivity].
Qed.

Definition R3 (kk vk : kind) (a b : val * val * Z) : Prop := rv kk (fst (fst a)) (fst (fst b)) /\ rv vk (snd (fst a)) (snd (fst b)) /\ snd a = snd b.
Lemma map_loop_rr fuel kk vk post : forall i kx ky vx vy, rv kk kx ky -> rv vk vx vy ->
  rr (fun _ _ => True) (R3 kk vk) (map_loop sc rec env fuel kk vk D i post kx vx) (map_loop sc rec' env' fuel kk vk D i post ky vy).
Proof.
  induction fuel as [|fuel IH]; intros i kx ky vx vy RK RV; [exact I|]. cbn [map_loop]. destruct (i <? post); [|cbn; repeat split; auto].
  eapply rr_bind; [apply rr_eq|]. intros [wire i1] _ <-. cbv zeta. destruct (s32 (Z.shiftr wire 3) =? 1).
  { eapply rr_bind; [now apply mapField_rr|]. intros [a j] [b j'] [A B]. cbn [fst snd] in *. subst. now apply IH. }
  destruct (s32 (Z.shiftr wire 3) =? 2).
  { eapply rr_bind; [now apply mapField_rr|]. intros [a j] [b j'] [A B]. cbn [fst snd] in *. subst. now apply IH. }
  eapply rr_bind; [apply rr_same|]. intros rest _ <-. eapply rr_bind; [apply rr_eq|]. intros sk _ <-.
  destruct ((sk <? 0) || _); [split; auto|]. destruct (post <? _); [split; auto|]. now apply IH.
Qed.
Lemma rv_map_zero k : rv k (map_zero k) (map_zero k).
Proof.
  destruct k; cbn; try (apply rv_num; reflexivity); try (eapply rv_sub; [reflexivity|apply rs_nil]).
  - apply rv_text; auto. split; [eauto|discriminate].
  - apply rv_text; auto. split; [discriminate|auto].
Qed.
Hypothesis OK_ : forall a, okt KString a -> match a with VStr _ | VRefS _ _ => True | _ => False end.
Lemma rv_keys kk a b a' b' : key_kind kk = true -> rv kk a b -> rv kk a' b' -> key_eqb a a' = key_eqb b b'.
Proof.
  intros KK R R'. assert (sub_of kk = None) as S by (destruct kk; try discriminate; reflexivity).
  inversion R as [? z N|? ? ? K Oa Pb E|? ? ? ? S0]; subst; try congruence;
    inversion R' as [? z' N'|? ? ? K' Oa' Pb' E'|? ? ? ? S0']; subst; try congruence; try (destruct K; subst; discriminate); try (destruct K'; subst; discriminate).
  - assert (kk = KString) as -> by (destruct K; [assumption|subst; discriminate]).
    apply OK_ in Oa. apply OK_ in Oa'. destruct Pb as [Pb _], Pb' as [Pb' _]. destruct (Pb eq_refl) as [s ->]. destruct (Pb' eq_refl) as [s' ->].
    cbn [vbytes] in *. subst. destruct a; try contradiction; destruct a'; try contradiction; reflexivity.
Qed.
Lemma map_set_rr kk vk l l' : key_kind kk = true -> Forall2 (fun e e' => rv kk (fst e) (fst e') /\ rv vk (snd e) (snd e')) l l' -> forall k k' v v', rv kk k k' -> rv vk v v' ->
  Forall2 (fun e e' => rv kk (fst e) (fst e') /\ rv vk (snd e) (snd e')) (map_set l k v) (map_set l' k' v').
Proof.
  intros KK H k k' v v' RK RV. induction H as [|[a x] [b y] l l' [E1 E2] H IH]; cbn [map_set].
  - constructor; auto.
  - cbn [fst snd] in *. rewrite (rv_keys kk k k' a b KK RK E1). destruct (key_eqb k' b); constructor; auto.
Qed.
Lemma rf_vmap f kk vk a b : f_ty f = TMap kk vk -> rf f a b -> Forall2 (fun e e' => rv kk (fst e) (fst e') /\ rv vk (snd e) (snd e')) (vmap a) (vmap b).
Proof.
  intros T H. inversion H as [? ? ? ? ? T0 X|? ? ? ? T0 L|? ? ? T0 L K|? ? ? ? ? ? T0 L K X|? ? ? ? ? ? T0 L K1 K2 Na Nb X|? ? ? ? ? ? T0 Sa Sb X|? ? ? ? ? ? T0 Sa Sb X|? ? ? T0|? ? ? ? ? ? T0 Nn|? ? ? ? ? T0 X]; subst; rewrite T in T0; try discriminate.
  injection T0 as <- <-. exact X.
Qed.
Lemma map_item_rr f kk vk i a b : In f (md_fields md) -> f_ty f = TMap kk vk -> RS a b ->
  rr RS RSZ (map_item sc rec env f kk vk D i a) (map_item sc rec' env' f kk vk D i b).
Proof.
  intros Hf T R. assert (key_kind kk = true) as KK.
  { pose proof (wf_ty sc m f W Hf) as WT. rewrite T in WT. cbn in WT. apply andb_true_iff in WT as [WT _]. now apply andb_true_iff in WT as [? _]. }
  assert (is_oneof f = false) as O by (unfold is_oneof; now rewrite T).
  unfold map_item. eapply rr_bind; [now apply rr_lift|]. intros [i1 post] _ <-.
  eapply rr_bind with (Q := rf f); [apply rr_orpanic; now apply get_rr|]. intros x y Rxy. pose proof (rf_vmap f kk vk x y T Rxy) as FM.
  eapply rr_bind with (Q := RS).
  { apply rr_orpanic. apply set_rr; auto; [|congruence]. eapply rf_map; eauto. }
  intros a1 b1 R1. eapply rr_bind with (Q := R3 kk vk).
  { pose proof (map_loop_rr (S (length D)) kk vk post i1 _ _ _ _ (rv_map_zero kk) (rv_map_zero vk)) as H.
    destruct (map_loop sc rec env _ _ _ _ _ _ _ _), (map_loop sc rec' env' _ _ _ _ _ _ _ _); cbn in *; try tauto. }
  intros [[k1 v1] j1] [[k2 v2] j2] (A & B & C). cbn [fst snd] in *.
  eapply rr_bind with (Q := RS).
  { apply rr_orpanic. apply set_rr; auto; [|congruence]. eapply rf_map; eauto. cbn [vmap]. now apply map_set_rr. }
  intros a2 b2 R2. split; auto.
Qed.

(** * Messages *)
Lemma nest_rr {m'} r r' put put' : rr (rs m') (rs m') r r' ->
  (forall x y, rs m' x y -> match put x, put' y with Some a', Some b' => RS a' b' | None, None => True | _, _ => False end) ->
  rr RS RS (nest r put) (nest r' put').
Proof.
  intros H K. destruct r as [x|e x| |], r' as [y|e' y| |]; cbn in *; try tauto.
  - specialize (K x y H). destruct (put x), (put' y); cbn; auto.
  - destruct H as [<- H]. specialize (K x y H). destruct (put x), (put' y); cbn; auto.
Qed.
Lemma rf_oneof_member f k a b x : f_ty f = TField LOneof k -> rf f a b -> (a = VOneof (f_num f) x -> exists y, b = VOneof (f_num f) y /\ rv k x y).
Proof.
  intros T H ->. inversion H as [? ? ? ? ? T0 X|? ? ? ? T0 L|? ? ? T0 L K|? ? ? ? ? ? T0 L K X|? ? ? ? ? ? T0 L K1 K2 Na Nb X|? ? ? ? ? ? T0 Sa Sb X|? ? ? ? ? ? T0 Sa Sb X|? ? ? T0|? ? ? ? ? ? T0 Nn|? ? ? ? ? T0 X]; subst; rewrite T in T0; try discriminate;
    try (destruct L; subst; discriminate); try congruence.
  injection T0 as <-. eauto.
Qed.
Lemma rf_oneof_not f k a b : f_ty f = TField LOneof k -> rf f a b -> (forall x, a <> VOneof (f_num f) x) -> forall y, b <> VOneof (f_num f) y.
Proof.
  intros T H N y ->. inversion H as [? ? ? ? ? T0 X|? ? ? ? T0 L|? ? ? T0 L K|? ? ? ? ? ? T0 L K X|? ? ? ? ? ? T0 L K1 K2 Na Nb X|? ? ? ? ? ? T0 Sa Sb X|? ? ? ? ? ? T0 Sa Sb X|? ? ? T0|? ? ? ? ? ? T0 Nn|? ? ? ? ? T0 X]; subst; rewrite T in T0; try discriminate;
    try (destruct L; subst; discriminate); try congruence.
Qed.
Lemma rf_sub f l k m' a b : f_ty f = TField l k -> l = LOptional \/ l = LRequired -> sub_of k = Some m' -> rf f a b -> rs m' a b.
Proof.
  intros T L S H. assert (k <> KBytes) as NB by (intros ->; discriminate).
  inversion H as [? ? ? ? ? T0 X|? ? ? ? T0 L0|? ? ? T0 L0 K|? ? ? ? ? ? T0 L0 K X|? ? ? ? ? ? T0 L0 K1 K2 Na Nb X|? ? ? ? ? ? T0 Sa Sb X|? ? ? ? ? ? T0 Sa Sb X|? ? ? T0|? ? ? ? ? ? T0 Nn|? ? ? ? ? T0 X]; subst; rewrite T in T0; try discriminate;
    try (injection T0; intros; subst; destruct L; discriminate).
  - apply rs_nil.
  - injection T0 as <- <-. destruct K as [K| ->]; [destruct k|]; discriminate.
  - injection T0 as <- <-. inversion X as [? ? N|? ? ? K|? m'' ? ? S']; subst; [destruct k; discriminate|destruct K; subst; discriminate|]. rewrite S in S'. injection S' as <-. assumption.
Qed.
Lemma rs_vnonnil m' x y : rs m' x y -> x <> VNil -> y <> VNil.
Proof. intros H N. pose proof (rs_nil_iff sc okt kept m' x y H). tauto. Qed.

Lemma message_item_rr f lbl m' i a b : In f (md_fields md) -> f_ty f = TField lbl (KMessage m') -> RS a b ->
  rr RS RSZ (message_item sc rec env md f lbl m' D i a) (message_item sc rec' env' md f lbl m' D i b).
Proof.
  intros Hf T R. unfold message_item. eapply rr_bind; [now apply rr_lift|]. intros [i1 post] _ <-.
  eapply rr_bind; [apply rr_slice|]. intros buf _ [<- Zt].
  set (fresh := if md_pool md && md_pool (md_of sc m') then ue_alloc env i1 m' else new_msg (md_of sc m')).
  set (fresh' := if md_pool md && md_pool (md_of sc m') then ue_alloc env' i1 m' else new_msg (md_of sc m')).
  assert (fresh' = new_msg (md_of sc m')) as -> by (unfold fresh'; destruct (_ && _); reflexivity).
  assert (rs m' fresh (new_msg (md_of sc m'))) as FR.
  { unfold fresh. destruct (md_pool md && md_pool (md_of sc m')) eqn:P; [apply EA; now apply andb_true_iff in P as [_ ?]|].
    now apply rs_new. }
  clearbody fresh.
  destruct (rs_local a b R) as [[-> ->]|(s & u & h & s' & h' & -> & -> & M)]; [exact I|].
  inversion M as [? ? ? ? ? ? L1 L2 F Sp Nh Ty]; subst. pose proof (F f Hf) as RF.
  assert (forall r r', rr RS RS r r' -> rr RS RSZ (do v' <- r; Ok (v', post)) (do v' <- r'; Ok (v', post))) as FIN.
  { intros r r' Hr. eapply rr_bind; [exact Hr|]. intros x y Rxy. split; auto. }
  assert (forall l, l = LOptional \/ l = LRequired -> lbl = l ->
    rr RS RS (nest (decodeMessage sc rec i1 m' buf (match slot s (f_slot f) with VNil => fresh | _ => slot s (f_slot f) end)) (fun x' => set_slot (VMsg s u h) (f_slot f) x'))
      (nest (decodeMessage sc rec' i1 m' buf (match slot s' (f_slot f) with VNil => new_msg (md_of sc m') | _ => slot s' (f_slot f) end)) (fun x' => set_slot (VMsg s' u h') (f_slot f) x'))) as OPT.
  { intros l L ->. pose proof (rf_sub f l (KMessage m') m' _ _ T L eq_refl RF) as RO. pose proof (rs_nil_iff sc okt kept m' _ _ RO) as NI.
    set (x := slot s (f_slot f)) in *. set (y := slot s' (f_slot f)) in *.
    set (tx := match x with VNil => fresh | _ => x end). set (ty := match y with VNil => new_msg (md_of sc m') | _ => y end).
    assert (rs m' tx ty) as RT.
    { assert ({x = VNil} + {x <> VNil}) as [Ex|Ex] by (destruct x; auto; right; discriminate).
      - assert (y = VNil) as Ey by tauto. unfold tx, ty. rewrite Ex, Ey. auto.
      - assert (y <> VNil) as Ey by tauto. replace tx with x by (unfold tx; destruct x; congruence || reflexivity).
        replace ty with y by (unfold ty; destruct y; congruence || reflexivity). auto. }
    eapply nest_rr; [now apply decodeMessage_rr|]. intros p q Rpq. cbn. apply rs_msg; [exact ML|]. apply rm_set; auto.
    - assert ({p = VNil} + {p <> VNil}) as [Ep|Ep] by (destruct p; auto; right; discriminate).
      + assert (q = VNil) as -> by (apply (rs_nil_iff sc okt kept m' p q Rpq); exact Ep). subst p. eapply rf_unset; eauto.
      + eapply rf_direct; eauto; [discriminate|eapply rs_vnonnil; eauto|eapply rv_sub; eauto; reflexivity].
    - intros O. exfalso. apply (not_one f l _ T); auto. destruct L; subst; discriminate. }
  destruct lbl; cbv zeta; [|apply FIN; apply (OPT LOptional); auto|apply FIN; apply (OPT LRequired); auto| |].
  - exfalso. pose proof (wf_ty sc m f W Hf) as WT. rewrite T in WT. cbn in WT. rewrite andb_false_r in WT. discriminate.
  - apply FIN. destruct (list_grow sc md m' h (f_slot f)) as [tx hx] eqn:Gx. destruct (list_grow sc md m' h' (f_slot f)) as [ty hy] eqn:Gy.
    assert (ty = new_msg (md_of sc m') /\ hy = h') as [-> ->].
    { unfold list_grow in Gy. destruct (md_pool md); [rewrite (Nh (f_slot f)) in Gy|]; injection Gy as <- <-; auto. }
    assert (rs m' tx (new_msg (md_of sc m')) /\ (forall g p k m'' x, In g (md_fields (md_of sc m)) -> f_ty g = TField (LRepeated p) k -> sub_of k = Some m'' ->
       In x (nth (f_slot g) hx []) -> x = VNil \/ rs m'' x (new_msg (md_of sc m''))) /\
       (forall i, nth i hx [] <> [] -> message_list sc m i)) as (RT & HX & TX).
    { unfold list_grow in Gx. destruct (md_pool md); [|injection Gx as <- <-; split; [now apply rs_new|split; [exact Sp|exact Ty]]].
      destruct (nth (f_slot f) h []) as [|x rest] eqn:Nt; injection Gx as <- <-; [split; [now apply rs_new|split; [exact Sp|exact Ty]]|].
      assert (x = VNil \/ rs m' x (new_msg (md_of sc m'))) as RX by (eapply (Sp f _ (KMessage m') m' x); eauto; rewrite Nt; now left).
      split; [|split].
      - destruct RX as [->|RX]; [now apply rs_new|]. destruct x; auto. now apply rs_new.
      - intros g p k m'' y Hg Tg Sg Hy. destruct (Nat.eq_dec (f_slot f) (f_slot g)) as [E|E].
        + assert (f_slot g < length h)%nat as LT by (rewrite <- E; destruct (lt_dec (f_slot f) (length h)); [assumption|rewrite nth_overflow in Nt by lia; discriminate]).
          rewrite <- E in Hy. rewrite nth_list_set_eq in Hy by (rewrite E; exact LT). rewrite <- E in *. eapply (Sp g p k m'' y); eauto. rewrite <- E, Nt. now right.
        + rewrite nth_list_set_neq in Hy by assumption. eauto.
      - intros j Nj. destruct (Nat.eq_dec (f_slot f) j) as [<-|E]; [apply Ty; rewrite Nt; discriminate|]. apply Ty. now rewrite nth_list_set_neq in Nj by assumption. }
    pose proof (decodeMessage_rr i1 m' buf tx _ Zt RT) as DM.
    eapply nest_rr; [exact DM|]. intros p q Rpq. apply rs_msg; [exact ML|].
    assert (rm m (VMsg s u hx) (VMsg s' u h')) as M' by (constructor; auto).
    apply rm_set; auto; [eapply app_list; eauto; eapply rv_sub; eauto; reflexivity|]. intros O. exfalso. apply (not_one f _ _ T); auto. discriminate.
  - apply FIN. set (x := slot s (f_slot f)) in *. set (y := slot s' (f_slot f)) in *.
    assert (forall p q, rs m' p q -> RS (VMsg (list_set s (f_slot f) (VOneof (f_num f) p)) u h) (VMsg (list_set s' (f_slot f) (VOneof (f_num f) q)) u h')) as PUT.
    { intros p q Rpq. apply rs_msg; [exact ML|]. apply rm_set; auto; [eapply rf_member; eauto; eapply rv_sub; eauto; reflexivity|]. eauto. }
    assert ((exists x0, x = VOneof (f_num f) x0) \/ forall x0, x <> VOneof (f_num f) x0) as [[x0 Ex]|Nx].
    { destruct x; try (right; discriminate). destruct (Z.eq_dec num (f_num f)); [subst; left; eauto|right; congruence]. }
    + destruct (rf_oneof_member f _ x y x0 T RF Ex) as (y0 & Ey & RV). rewrite Ex, Ey, Z.eqb_refl.
      inversion RV as [? ? N|? ? ? K|? m'' ? ? S']; subst; [discriminate|destruct K; discriminate|]. injection S' as <-.
      eapply nest_rr; [now apply decodeMessage_rr|]. intros p q Rpq. cbn. now apply PUT.
    + pose proof (rf_oneof_not f _ x y T RF Nx) as Ny.
      assert (match x with VOneof n x1 => if n =? f_num f then Some x1 else None | _ => None end = None) as ->.
      { destruct x; try reflexivity. destruct (num =? f_num f) eqn:E; [|reflexivity]. apply Z.eqb_eq in E. subst. exfalso. eapply Nx; reflexivity. }
      assert (match y with VOneof n x1 => if n =? f_num f then Some x1 else None | _ => None end = None) as ->.
      { destruct y; try reflexivity. destruct (num =? f_num f) eqn:E; [|reflexivity]. apply Z.eqb_eq in E. subst. exfalso. eapply Ny; reflexivity. }
      eapply rr_bind with (Q := rs m').
      * eapply rr_drop; [now apply decodeMessage_rr|exact R].
      * intros p q Rpq. cbn. now apply PUT.
Qed.

Lemma group_loop_rr fuel f g wire st : In f (md_fields md) -> forall i a b, RS a b -> Z.land wire 7 = 3 ->
  rr RS RSZ (group_loop sc rec fuel f g wire D st i a) (group_loop sc rec' fuel f g wire D st i b).
Proof.
  intros Hf. induction fuel as [|fuel IH]; intros i a b R Wr; [exact I|]. cbn [group_loop]. eapply rr_bind; [now apply rr_lift|].
  intros [w i1] _ <-. cbv zeta. rewrite Wr. cbn [Z.eqb Pos.eqb]. eapply rr_bind; [apply rr_same|]. intros rest _ <-. eapply rr_bind; [now apply rr_lift|]. intros sk _ <-.
  destruct ((sk <? 0) || _); [split; auto|]. now apply IH.
Qed.

Lemma fieldItem_rr f lbl k wire i a b : In f (md_fields md) -> f_ty f = TField lbl k -> (is_group k = true -> Z.land wire 7 = 3) -> RS a b ->
  rr RS RSZ (fieldItem sc rec env md f lbl k wire D i a) (fieldItem sc rec' env' md f lbl k wire D i b).
Proof.
  intros Hf T Gw R. unfold fieldItem. destruct (sub_of k) as [m'|] eqn:S.
  - destruct k; try discriminate; cbn [classify].
    + apply group_loop_rr; auto.
    + injection S as ->. now apply message_item_rr.
  - assert (is_num k = true \/ k = KString \/ k = KBytes) as [N|[->| ->]] by (destruct k; auto; discriminate).
    + match goal with |- rr _ _ ?x ?y => change (rr RS RSZ (fieldItem sc rec env md f lbl k wire D i a) (fieldItem sc rec' env' md f lbl k wire D i b)) end.
      rewrite !num_item_eq by assumption. unfold num_item. eapply rr_bind with (Q := RS).
      { rewrite !number_start_store. destruct (in_place lbl k); [|exact R]. apply rr_orpanic. apply store_rr; auto; [now apply rv_num|]. intros ->. discriminate. }
      intros a0 b0 R0. eapply rr_bind; [now apply rr_lift|]. intros [z j] _ <-. cbn [fst snd]. eapply rr_bind with (Q := RS).
      * apply rr_orpanic. apply store_rr; auto; [now apply rv_num|]. intros ->. discriminate.
      * intros x y Rxy. split; auto.
    + cbn [classify]. eapply rr_bind; [now apply rr_lift|]. intros [i1 post] _ <-. eapply rr_bind; [apply rr_slice|]. intros s _ [<- Zt].
      eapply rr_bind with (Q := RS); [|intros x y Rxy; split; auto]. apply rr_orpanic. apply store_rr; auto; [now apply rv_str|discriminate].
    + cbn [classify]. eapply rr_bind; [now apply rr_lift|]. intros [i1 post] _ <-. eapply rr_bind; [apply rr_slice|]. intros s _ [<- Zt].
      eapply rr_bind with (Q := RS); [|intros x y Rxy; split; auto]. apply rr_orpanic. apply store_rr; auto; [now apply rv_bytes|]. intros _. split; [now apply EB|discriminate].
Qed.
Lemma packed_loop_rr fuel f lbl k wire post : In f (md_fields md) -> f_ty f = TField lbl k -> is_group k = false -> forall i a b, RS a b ->
  rr RS RSZ (packed_loop sc rec env fuel md f lbl k wire D i post a) (packed_loop sc rec' env' fuel md f lbl k wire D i post b).
Proof.
  intros Hf T G. induction fuel as [|fuel IH]; intros i a b R; [exact I|]. cbn [packed_loop]. destruct (i <? post); [|split; auto].
  eapply rr_bind; [apply fieldItem_rr; auto; congruence|]. intros [x j] [y j'] [A B]. cbn [fst snd] in *. subst. now apply IH.
Qed.
Lemma um_field_rr f wire i a b : In f (md_fields md) -> RS a b ->
  rr RS RSZ (um_field sc rec env md f wire D i a) (um_field sc rec' env' md f wire D i b).
Proof.
  intros Hf R. unfold um_field. destruct (f_ty f) as [lbl k|kk vk] eqn:T.
  - assert (Z.land wire 7 =? ProtoWireType k = true -> is_group k = true -> Z.land wire 7 = 3) as GW.
    { intros E G. apply Z.eqb_eq in E. destruct k; try discriminate. exact E. }
    destruct (packable lbl k) eqn:P.
    + destruct (Z.land wire 7 =? ProtoWireType k) eqn:E1; [apply fieldItem_rr; auto|].
      destruct (Z.land wire 7 =? 2) eqn:E2; [|split; auto].
      eapply rr_bind; [now apply rr_lift|]. intros [i1 post] _ <-.
      destruct (is_group k) eqn:G; [|now apply packed_loop_rr].
      (* a group in a packed list cannot be reached *)
      apply Z.eqb_eq in E2.
      assert (forall fuel i a b, RS a b -> rr RS RSZ (packed_loop sc rec env fuel md f lbl k wire D i post a) (packed_loop sc rec' env' fuel md f lbl k wire D i post b)) as PG.
      { induction fuel as [|fuel IH]; intros i0 a0 b0 R0; [exact I|]. cbn [packed_loop]. destruct (i0 <? post); [|split; auto].
        eapply rr_bind with (Q := RSZ).
        - destruct k; try discriminate. cbn [fieldItem classify]. unfold fieldItem. cbn [classify].
          assert (forall fuel st i a b, RS a b -> rr RS RSZ (group_loop sc rec fuel f m0 wire D st i a) (group_loop sc rec' fuel f m0 wire D st i b)) as GL.
          { clear - E2 R0. induction fuel as [|fl IHl]; intros st i1 a1 b1 R1; [exact I|]. cbn [group_loop]. eapply rr_bind; [now apply rr_lift|].
            intros [w i2] _ <-. cbv zeta. rewrite E2. cbn [Z.eqb Pos.eqb]. eapply rr_bind; [apply rr_same|]. intros rest _ <-. eapply rr_bind; [now apply rr_lift|]. intros sk _ <-.
            destruct ((sk <? 0) || _); [split; auto|]. now apply IHl. }
          now apply GL.
        - intros [x j] [y j'] [A B]. cbn [fst snd] in *. subst. now apply IH. }
      now apply PG.
    + destruct (Z.land wire 7 =? ProtoWireType k) eqn:E1; [apply fieldItem_rr; auto|split; auto].
  - destruct (Z.land wire 7 =? 2); [now apply map_item_rr|split; auto].
Qed.

Lemma um_unknown_rr num i a b : RS a b -> rr RS RSZ (um_unknown sc m num D i a) (um_unknown sc m num D i b).
Proof.
  intros R. unfold um_unknown. cbv zeta. eapply rr_bind; [apply rr_same|]. intros rest _ <-. eapply rr_bind; [now apply rr_lift|]. intros sk _ <-.
  destruct ((sk <? 0) || _); [split; auto|]. destruct (zlen D <? _); [split; auto|]. eapply rr_bind; [apply rr_same|]. intros raw _ <-.
  destruct (in_ext (md_of sc m) num).
  - destruct (rs_local a b R) as [[-> ->]|(s & u & h & s' & h' & -> & -> & M)]; [exact I|].
    destruct (up_ext (sc_up sc) m raw) as [v|] eqn:U; [|split; auto]. split; [|reflexivity]. apply rs_msg; [exact ML|]. eapply UX; eauto.
  - destruct (md_keep (md_of sc m)); [|split; auto].
    destruct (rs_local a b R) as [[-> ->]|(s & u & h & s' & h' & -> & -> & M)]; [exact I|]. cbn. split; [|reflexivity].
    apply rs_msg; [exact ML|]. now apply rm_unk.
Qed.

Definition RSZH (a b : val * Z * list Z) : Prop := rs m (fst (fst a)) (fst (fst b)) /\ snd (fst a) = snd (fst b) /\ snd a = snd b.
Lemma um_step_rr i a b has : RS a b -> rr RS RSZH (um_step sc rec env m D i a has) (um_step sc rec' env' m D i b has).
Proof.
  intros R. unfold um_step. cbv zeta. eapply rr_bind; [now apply rr_lift|]. intros [wire i1] _ <-.
  destruct (Z.land wire 7 =? 4); [split; auto|]. destruct (_ <=? 0); [split; auto|].
  destruct (find_field _ _) as [f|] eqn:Ff.
  - apply find_some in Ff as [Hf _]. eapply rr_bind; [now apply um_field_rr|]. intros [x j] [y j'] [A B]. cbn [fst snd] in *. repeat split; auto.
  - eapply rr_bind; [now apply um_unknown_rr|]. intros [x j] [y j'] [A B]. cbn [fst snd] in *. repeat split; auto.
Qed.
Lemma um_loop_rr fuel : forall i a b has, RS a b -> rr RS RSZH (um_loop sc rec env fuel m D i a has) (um_loop sc rec' env' fuel m D i b has).
Proof.
  induction fuel as [|fuel IH]; intros i a b has R; [exact I|]. cbn [um_loop]. destruct (i <? zlen D); [|repeat split; auto].
  eapply rr_bind; [now apply um_step_rr|]. intros [[x j] h1] [[y j'] h2] (A & B & C). cbn [fst snd] in *. subst. now apply IH.
Qed.
Lemma um_body_rr a b : RS a b -> rr RS RS (um_body sc rec env m D a) (um_body sc rec' env' m D b).
Proof.
  intros R. unfold um_body. eapply rr_bind; [now apply um_loop_rr|]. intros [[x j] h1] [[y j'] h2] (A & B & C). cbn [fst snd] in *. subst.
  destruct (negb _); [split; auto|]. destruct (zlen D <? _); [split; auto|]. exact A.
Qed.
End Level.
End Run.
