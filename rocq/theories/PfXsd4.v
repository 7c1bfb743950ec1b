(** py2xsd: schemas for which no document comes out. *)
From Coq Require Import String Ascii List ZArith NArith Bool Lia.
From Verif Require Import PyBase PfBase PyRe Xml PyVal XsdSimple XsdComplex PyHttp Soap Client LibClasses Py2Xsd SpecXsd SpecFacets
  PfSimple PfObject PfRender PfRender2 PfRound PfLeaf PfLib PfXsd PfXsd2 PfXsd3.
Import ListNotations.
Open Scope string_scope.
Open Scope list_scope.

(** ** Shapes *)
Lemma py_set_shape O L c xe fs k v x : py_set O L (VObj c xe fs) k v = Ok x ->
  exists v', x = VObj c xe (assoc_set k v' fs) /\
    exists d f, e_cls L c = Some d /\ find_field (cd_fields d) k = Ok f /\ field_accept O L f v = Ok v'.
Proof.
  unfold py_set, get_class. destruct (e_cls L c) as [d|]; [|discriminate]. cbn [bind]. unfold setattr.
  destruct (find_field (cd_fields d) k) as [f|] eqn:Ef; [|discriminate]. cbn [bind].
  destruct (field_accept O L f v) as [v'|] eqn:Ea; [|discriminate]. cbn [bind]. intros [= <-]. eauto 8.
Qed.
Lemma type_accept_complex O L c v v' : type_accept O L (TComplex c) v = Ok v' -> v' = v.
Proof.
  cbn. unfold complex_accept. intros H. apply bind_ok in H as (d & _ & H). destruct (cd_kind d); try congruence;
    destruct v; try congruence; match type of H with (if ?b then _ else _) = _ => destruct b end; congruence.
Qed.
Lemma py_append_shape O L c xe fs k v x : py_append O L (VObj c xe fs) k v = Ok x ->
  exists t l v', assoc k fs = Some (VList t l) /\ x = VObj c xe (assoc_set k (VList t (l ++ [v'])) fs) /\
    ((exists d f c', e_cls L c = Some d /\ find_field (cd_fields d) k = Ok f /\ f_type f = TComplex c') -> v <> VNil -> v' = v).
Proof.
  unfold py_append, get_class. destruct (e_cls L c) as [d|]; [|discriminate]. cbn [bind].
  destruct (find_field (cd_fields d) k) as [f|] eqn:Ef; [|discriminate]. cbn [bind]. unfold getattr.
  destruct (assoc k fs) as [cur|]; [|discriminate]. cbn [bind]. destruct cur; try discriminate. rename typed into t.
  intros H. apply bind_ok in H as (l' & Hl & [= <-]). unfold tl_append in Hl. apply bind_ok in Hl as (a & Ha & Hl).
  destruct (exceeds _ _); [discriminate|]. injection Hl as <-. exists t, l, a. repeat split.
  intros (d1 & f1 & c' & E1 & E2 & E3) Hv. assert (d1 = d) as -> by congruence. assert (f1 = f) as -> by congruence.
  rewrite E3 in Ha. destruct v; try congruence; exact (type_accept_complex _ _ _ _ _ Ha).
Qed.

(** ** Objects that cannot be rendered *)
Definition never (O : oracle) (L : env) (v : pyval) : Prop :=
  (exists c xe fs, v = VObj c xe fs) /\ forall n c parent ns efd x, render_obj n O L c parent v ns efd <> Ok x.

Lemma never_attr O L ci xe fs di f : e_cls L ci = Some di -> In f (cd_fields di) -> is_attr f = true -> attr_missing fs f ->
  never O L (VObj ci xe fs).
Proof. intros. split; [eauto|]. intros. eapply missing_never_ok; eauto. Qed.

Lemma never_list O L ci xe fs di f c t items v : e_cls L ci = Some di -> In f (cd_fields di) -> f_kind f = KList ->
  f_type f = TComplex c -> f_tag f <> None -> assoc (f_name f) fs = Some (VList t items) -> In v items -> never O L v -> never O L (VObj ci xe fs).
Proof.
  intros Hd Hf K Ty Tg A I [(cv & xv & fv & ->) N]. split; [eauto|]. intros n c' parent ns efd x H.
  apply render_obj_ok in H as (n' & d & di' & ns1 & -> & _ & Hd' & _ & H). assert (di' = di) as -> by congruence.
  destruct (foldM_ok_each _ _ _ _ H f Hf) as (b & b' & Q). unfold getattr in Q. rewrite A in Q. cbn [bind] in Q.
  unfold render_field in Q. rewrite K in Q. unfold render_list in Q.
  destruct (match f_min f with Some m => _ | None => _ end); [discriminate|]. destruct (match f_max f with OInt m => _ | _ => _ end); [discriminate|].
  destruct (f_tag f) as [tag|]; [|congruence].
  destruct (foldM_ok_each _ _ _ _ Q _ I) as (b1 & b2 & Q1). cbn beta in Q1. apply bind_ok in Q1 as (x1 & _ & Q1).
  apply bind_ok in Q1 as (x2 & Q1 & _). rewrite Ty in Q1. cbn in Q1. exact (N _ _ _ _ _ _ Q1).
Qed.
Lemma never_elem O L ci xe fs di f c v : e_cls L ci = Some di -> In f (cd_fields di) -> f_kind f = KElement ->
  f_type f = TComplex c -> assoc (f_name f) fs = Some v -> never O L v -> never O L (VObj ci xe fs).
Proof.
  intros Hd Hf K Ty A [(cv & xv & fv & ->) N]. split; [eauto|]. intros n c' parent ns efd x H.
  apply render_obj_ok in H as (n' & d & di' & ns1 & -> & _ & Hd' & _ & H). assert (di' = di) as -> by congruence.
  destruct (foldM_ok_each _ _ _ _ H f Hf) as (b & b' & Q). unfold getattr in Q. rewrite A in Q. cbn [bind] in Q.
  unfold render_field in Q. rewrite K in Q. unfold render_element in Q. apply bind_ok in Q as (x1 & _ & Q).
  apply bind_ok in Q as (x2 & Q1 & _). rewrite Ty in Q1. cbn in Q1. exact (N _ _ _ _ _ _ Q1).
Qed.

(** An object of class [c] with a hopeless item in the list [k]. *)
Definition stuck (O : oracle) (L : env) (c k : string) (x : pyval) : Prop :=
  exists xe fs t items v, x = VObj c xe fs /\ assoc k fs = Some (VList t items) /\ In v items /\ never O L v.
Definition is_obj (c : string) (x : pyval) : Prop := exists xe fs, x = VObj c xe fs.

Lemma stuck_append O L c k k' v x x' : stuck O L c k x -> py_append O L x k' v = Ok x' -> stuck O L c k x'.
Proof.
  intros (xe & fs & t & items & w & -> & A & I & N) H. apply py_append_shape in H as (t' & l & v' & A' & -> & _).
  destruct (String.eqb_spec k k') as [-> |Ne].
  - exists xe, (assoc_set k' (VList t' (l ++ [v'])) fs), t', (l ++ [v']), w. split; [reflexivity|]. split; [apply assoc_set_same|].
    split; [|exact N]. apply in_app_iff. left. congruence.
  - exists xe, (assoc_set k' (VList t' (l ++ [v'])) fs), t, items, w. rewrite assoc_set_other by assumption. auto.
Qed.
Lemma stuck_set O L c k k' v x x' : k <> k' -> stuck O L c k x -> py_set O L x k' v = Ok x' -> stuck O L c k x'.
Proof.
  intros Ne (xe & fs & t & items & w & -> & A & I & N) H. apply py_set_shape in H as (v' & -> & _).
  exists xe, (assoc_set k' v' fs), t, items, w. rewrite assoc_set_other by assumption. auto.
Qed.
Lemma obj_append O L c k v x x' : is_obj c x -> py_append O L x k v = Ok x' -> is_obj c x'.
Proof. intros (xe & fs & ->) H. apply py_append_shape in H as (t' & l & v' & A' & -> & _). eexists _, _. reflexivity. Qed.
Lemma obj_set O L c k v x x' : is_obj c x -> py_set O L x k v = Ok x' -> is_obj c x'.
Proof. intros (xe & fs & ->) H. apply py_set_shape in H as (v' & -> & _). eexists _, _. reflexivity. Qed.
Lemma stuck_by O L c k v x x' : is_obj c x -> never O L v ->
  (exists d f c', e_cls L c = Some d /\ find_field (cd_fields d) k = Ok f /\ f_type f = TComplex c') ->
  py_append O L x k v = Ok x' -> stuck O L c k x'.
Proof.
  intros (xe & fs & ->) N F H. apply py_append_shape in H as (t' & l & v' & A' & -> & V).
  exists xe, (assoc_set k (VList t' (l ++ [v'])) fs), t', (l ++ [v']), v. split; [reflexivity|]. split; [apply assoc_set_same|].
  split; [|exact N]. rewrite V; [apply in_app_iff; right; now left|exact F|]. destruct N as [(cv & xv & fv & ->) _]. discriminate.
Qed.

Lemma foldM_reach {A B} (f : A -> B -> res A) (P Q : A -> Prop) x0 l : forall a a',
  In x0 l -> P a -> (forall x b b', P b -> f b x = Ok b' -> P b') -> (forall b b', P b -> f b x0 = Ok b' -> Q b') ->
  (forall x b b', Q b -> f b x = Ok b' -> Q b') -> foldM f a l = Ok a' -> Q a'.
Proof.
  induction l as [|y l IH]; intros a a' I Pa HP H0 HQ H; [destruct I|]. cbn in H. apply bind_ok in H as (b & Hb & H).
  destruct I as [-> |I].
  - eapply foldM_inv with (P := Q); [eapply H0; eauto| |exact H]. intros; eapply HQ; eauto.
  - exact (IH b a' I (HP _ _ _ Pa Hb) HP H0 HQ H).
Qed.

(** ** Attributes *)
Section lib.
Context (O : oracle) (lim : nat) (E : env) (G : decls).
Notation L := (lib_env lim).

Lemma attr_never c f a : xsd_attribute O L G c f = Ok a -> never O L a.
Proof.
  unfold xsd_attribute. assert (N : construct O L (xs "Attribute") [] = Ok (VObj (xs "Attribute") None
    [("name", VNone); ("ref", VNone); ("type", VNone); ("use", VNone); ("simpleType", VNone)])) by (vm_compute; reflexivity).
  rewrite N. cbn [bind]. intros H. apply bind_ok in H as (a1 & H1 & H). apply py_set_shape in H1 as (v1 & -> & _).
  apply bind_ok in H as (a2 & H1 & H). apply py_set_shape in H1 as (v2 & -> & _). apply bind_ok in H as (t & _ & H).
  apply py_set_shape in H as (v3 & -> & _). clear N.
  eapply never_attr with (f := fa "ref" ty_string); [vm_compute; reflexivity|cbn [cd_fields]; cbn; tauto|reflexivity|].
  left. split; [reflexivity|]. exists 1%Z. split; [reflexivity|discriminate].
Qed.

Lemma ct_obj : exists fs, construct O L (xs "XSDComplexType") [] = Ok (VObj (xs "XSDComplexType") None fs).
Proof. eexists. vm_compute. reflexivity. Qed.

Lemma ct_stuck c d named ct f : e_cls E c = Some d -> In f (cd_fields d) -> is_attr f = true ->
  xsd_complexType O L E G c named = Ok ct -> stuck O L (xs "XSDComplexType") "attributes" ct.
Proof.
  intros Hd Hf Ha. unfold xsd_complexType, get_class. rewrite Hd. cbn [bind]. destruct ct_obj as (fs & ->). cbn [bind].
  intros H. apply bind_ok in H as (ct1 & H1 & H). 
  assert (O1 : is_obj (xs "XSDComplexType") ct1).
  { destruct named; [|injection H1 as <-; eexists _, _; reflexivity]. apply bind_ok in H1 as (m & _ & H1).
    eapply obj_set; [|exact H1]. eexists _, _. reflexivity. }
  apply bind_ok in H as (ct2 & H2 & H). apply bind_ok in H as (s & _ & H). apply bind_ok in H as (s2 & _ & H).
  eapply stuck_set; [|.. |exact H]; [destruct (cd_ind d); discriminate|].
  eapply foldM_reach with (x0 := f) (P := is_obj (xs "XSDComplexType")); [| | | | |exact H2].
  - apply filter_In. now split.
  - exact O1.
  - intros y b b' Hb Q. apply bind_ok in Q as (a & _ & Q). eapply obj_append; eauto.
  - intros b b' Hb Q. apply bind_ok in Q as (a & Qa & Q). eapply stuck_by; [exact Hb|eapply attr_never; eauto| |exact Q].
    eexists _, _, _. split; [vm_compute; reflexivity|]. split; reflexivity.
  - intros y b b' Hb Q. apply bind_ok in Q as (a & _ & Q). eapply stuck_append; eauto.
Qed.
Lemma ct_never c d named ct f : e_cls E c = Some d -> In f (cd_fields d) -> is_attr f = true ->
  xsd_complexType O L E G c named = Ok ct -> never O L ct.
Proof.
  intros Hd Hf Ha H. destruct (ct_stuck _ _ _ _ _ Hd Hf Ha H) as (xe & fs & t & items & v & -> & A & I & N).
  eapply never_list with (f := fl "attributes" "attribute" (xs_t "Attribute") None None);
    [vm_compute; reflexivity|cbn; tauto|reflexivity|reflexivity|discriminate|exact A|exact I|exact N].
Qed.

Lemma element_never name el c d e f : ge_class el = false -> ge_type el = TComplex c -> e_cls E c = Some d -> In f (cd_fields d) -> is_attr f = true ->
  generate_element O L E G name el = Ok e -> never O L e.
Proof.
  intros Hg Ht Hd Hf Ha. unfold generate_element. rewrite new_el. cbn [bind]. rewrite el_set_name. cbn [bind].
  intros H. apply bind_ok in H as (e1 & H1 & H).
  assert (O1 : is_obj (xs "Element") e1).
  { destruct (ge_subst el); [|injection H1 as <-; eexists _, _; reflexivity]. eapply obj_set; [|exact H1]. eexists _, _. reflexivity. }
  rewrite Hg, Ht in H. apply bind_ok in H as (ct & Hct & H). destruct O1 as (xe & fs & ->).
  apply py_set_shape in H as (v' & -> & d1 & f1 & E1 & E2 & Acc).
  assert (Hd1 : Some d1 = e_cls L (xs "Element")) by (symmetry; exact E1). revert Hd1. vm_compute e_cls. intros [= ->].
  revert E2. vm_compute find_field. intros [= <-]. unfold field_accept in Acc. cbn [f_kind fe f_type] in Acc.
  pose proof (ct_never _ _ _ _ _ Hd Hf Ha Hct) as N.
  assert (v' = ct) as ->.
  { destruct N as [(cc & xx & ff & ->) _]. exact (type_accept_complex _ _ _ _ _ Acc). }
  eapply never_elem with (f := fe "complexType" (xs_t "XSDComplexType") 1 None); [vm_compute; reflexivity|cbn; tauto|reflexivity|reflexivity| |exact N].
  apply assoc_set_same.
Qed.

(** ** Schemas *)
Lemma sch_obj : exists fs, construct O L (xs "Schema") [] = Ok (VObj (xs "Schema") None fs).
Proof. eexists. vm_compute. reflexivity. Qed.
Definition SC := xs "Schema".

Lemma include_never i o : (i = None \/ i = Some "") ->
  (o <- construct O L (xs "Include") [] ;; set_location O L o i) = Ok o -> never O L o.
Proof.
  assert (N : construct O L (xs "Include") [] = Ok (VObj (xs "Include") None [("schemaLocation", VNone)])) by (vm_compute; reflexivity).
  rewrite N. cbn [bind]. intros [-> | ->] [= <-];
  (eapply never_attr with (f := fa "schemaLocation" ty_string); [vm_compute; reflexivity|cbn; tauto|reflexivity|];
   left; split; [reflexivity|]; exists 1%Z; split; [reflexivity|discriminate]).
Qed.

Definition step_ok {A} (f : pyval -> A -> res pyval) : Prop :=
  (forall x b b', is_obj SC b -> f b x = Ok b' -> is_obj SC b') /\
  (forall k x b b', stuck O L SC k b -> f b x = Ok b' -> stuck O L SC k b').
Lemma append_step {A} (mk : A -> res pyval) k : step_ok (fun x a => o <- mk a ;; py_append O L x k o).
Proof.
  split.
  - intros a b b' Hb Q. apply bind_ok in Q as (o & _ & Q). eapply obj_append; eauto.
  - intros k' a b b' Hb Q. apply bind_ok in Q as (o & _ & Q). eapply stuck_append; eauto.
Qed.
Lemma import_step : step_ok (fun x (i : string * option string) =>
  o <- construct O L (xs "Import") [] ;; o <- py_set O L o "namespace" (VStr (fst i)) ;; o <- set_location O L o (snd i) ;; py_append O L x "imports" o).
Proof.
  split.
  - intros a b b' Hb Q. apply bind_ok in Q as (o & _ & Q). apply bind_ok in Q as (o1 & _ & Q). apply bind_ok in Q as (o2 & _ & Q). eapply obj_append; eauto.
  - intros k' a b b' Hb Q. apply bind_ok in Q as (o & _ & Q). apply bind_ok in Q as (o1 & _ & Q). apply bind_ok in Q as (o2 & _ & Q). eapply stuck_append; eauto.
Qed.
Lemma include_step : step_ok (fun x (i : option string) =>
  o <- construct O L (xs "Include") [] ;; o <- set_location O L o i ;; py_append O L x "includes" o).
Proof.
  split.
  - intros a b b' Hb Q. apply bind_ok in Q as (o & _ & Q). apply bind_ok in Q as (o1 & _ & Q). eapply obj_append; eauto.
  - intros k' a b b' Hb Q. apply bind_ok in Q as (o & _ & Q). apply bind_ok in Q as (o1 & _ & Q). eapply stuck_append; eauto.
Qed.
Lemma step_obj {A} (f : pyval -> A -> res pyval) l a a' : step_ok f -> is_obj SC a -> foldM f a l = Ok a' -> is_obj SC a'.
Proof. intros [S1 _] Ha H. eapply foldM_inv with (P := is_obj SC); [exact Ha| |exact H]. intros; eapply S1; eauto. Qed.
Lemma step_stuck {A} k (f : pyval -> A -> res pyval) l a a' : step_ok f -> stuck O L SC k a -> foldM f a l = Ok a' -> stuck O L SC k a'.
Proof. intros [_ S2] Ha H. eapply foldM_inv with (P := stuck O L SC k); [exact Ha| |exact H]. intros; eapply S2; eauto. Qed.
Lemma step_reach {A} k (f : pyval -> A -> res pyval) x0 l a a' : step_ok f -> is_obj SC a -> In x0 l ->
  (forall b b', is_obj SC b -> f b x0 = Ok b' -> stuck O L SC k b') -> foldM f a l = Ok a' -> stuck O L SC k a'.
Proof.
  intros [S1 S2] Ha I H0 H. eapply foldM_reach with (P := is_obj SC) (Q := stuck O L SC k) (x0 := x0); eauto.
Qed.

(** A schema that contains a complex type with an attribute, or an include
    without location. *)
Definition hopeless (s : gschema) : Prop :=
  (exists c d f, e_cls E c = Some d /\ In f (cd_fields d) /\ is_attr f = true /\
     describes s c) \/
  In None (gs_includes s) \/ In (Some "") (gs_includes s).

Lemma schema_stuck s x : hopeless s -> generate_xsdspec O L E G s = Ok x ->
  exists k, In k ["includes"; "complexTypes"; "elements"] /\ stuck O L SC k x.
Proof.
  intros HH H. unfold generate_xsdspec in H. destruct sch_obj as (fs & Hfs). rewrite Hfs in H. cbn [bind] in H.
  apply bind_ok in H as (x1 & H1 & H). apply bind_ok in H as (x2 & H2 & H). apply bind_ok in H as (x3 & H3 & H).
  apply bind_ok in H as (x4 & H4 & H). apply bind_ok in H as (x5 & H5 & H). apply bind_ok in H as (x6 & H6 & H).
  assert (O1 : is_obj SC x1) by (eapply obj_set; [eexists _, _; reflexivity|exact H1]).
  assert (O2 : is_obj SC x2) by (eapply obj_set; eauto).
  assert (O3 : is_obj SC x3) by (eapply step_obj; [apply import_step|exact O2|exact H3]).
  assert (O4 : is_obj SC x4) by (eapply step_obj; [apply include_step|exact O3|exact H4]).
  assert (O5 : is_obj SC x5) by (eapply step_obj; [apply append_step|exact O4|exact H5]).
  assert (O6 : is_obj SC x6) by (eapply step_obj; [apply append_step|exact O5|exact H6]).
  destruct HH as [(c & d & f & Hd & Hf & Ha & [I | (name & el & I & Hg & Ht)]) | HI].
  - exists "complexTypes". split; [cbn; tauto|].
    eapply step_stuck; [apply append_step| |exact H].
    eapply step_reach; [apply append_step|exact O5|exact I| |exact H6].
    intros b b' Hb Q. apply bind_ok in Q as (o & Ho & Q). eapply stuck_by; [exact Hb|eapply ct_never; eauto| |exact Q].
    eexists _, _, _. split; [vm_compute; reflexivity|]. split; reflexivity.
  - exists "elements". split; [cbn; tauto|].
    eapply step_reach; [apply append_step|exact O6|exact I| |exact H].
    intros b b' Hb Q. apply bind_ok in Q as (o & Ho & Q). cbn [fst snd] in Ho. eapply stuck_by; [exact Hb|eapply element_never; eauto| |exact Q].
    eexists _, _, _. split; [vm_compute; reflexivity|]. split; reflexivity.
  - exists "includes". split; [cbn; tauto|].
    eapply step_stuck; [apply append_step| |exact H]. eapply step_stuck; [apply append_step| |exact H6].
    eapply step_stuck; [apply append_step| |exact H5].
    assert (exists i, In i (gs_includes s) /\ (i = None \/ i = Some "")) as (i & I & Hi) by (destruct HI; eauto).
    eapply step_reach; [apply include_step|exact O3|exact I| |exact H4].
    intros b b' Hb Q. apply bind_ok in Q as (o & Ho & Q). apply bind_ok in Q as (o1 & Ho1 & Q). eapply stuck_by; [exact Hb| | |exact Q].
    + eapply include_never; [exact Hi|]. rewrite Ho. exact Ho1.
    + eexists _, _, _. split; [vm_compute; reflexivity|]. split; reflexivity.
Qed.

Lemma generate_hopeless s n doc : hopeless s -> generate_xsd n O L E G s <> Ok doc.
Proof.
  intros HH H. unfold generate_xsd in H. apply bind_ok in H as (x & Hx & H).
  destruct (schema_stuck s x HH Hx) as (k & Ik & xe & fs & t & items & v & -> & A & I & N).
  apply bind_ok in H as (root & _ & H). cbn [obj_parts bind fst] in H. apply bind_ok in H as (r & H & _).
  assert (NS : never O L (VObj SC xe fs)).
  { repeat destruct Ik as [<- |Ik]; [| | |destruct Ik].
    - eapply never_list with (f := fl "includes" "include" (xs_t "Include") None None);
        [vm_compute; reflexivity|cbn; tauto|reflexivity|reflexivity|discriminate|exact A|exact I|exact N].
    - eapply never_list with (f := fl "complexTypes" "complexType" (xs_t "XSDComplexType") None None);
        [vm_compute; reflexivity|cbn; tauto|reflexivity|reflexivity|discriminate|exact A|exact I|exact N].
    - eapply never_list with (f := fl "elements" "element" (xs_t "Element") None None);
        [vm_compute; reflexivity|cbn; tauto|reflexivity|reflexivity|discriminate|exact A|exact I|exact N]. }
  exact (proj2 NS _ _ _ _ _ _ H).
Qed.

(** ** Values that are not text *)
Lemma enum_text r v x : add_enumeration O L r v = Ok x -> v = VNone \/ exists s, v = VStr s.
Proof.
  unfold add_enumeration. assert (N : construct O L (xs "Enumeration") [] = Ok (VObj (xs "Enumeration") None [("value", VNone)])) by (vm_compute; reflexivity).
  rewrite N. cbn [bind]. intros H. apply bind_ok in H as (e & H & _). clear N.
  destruct v; try (left; reflexivity); try (right; eexists; reflexivity); vm_compute in H; discriminate.
Qed.
Lemma facet_text cls name v r x : In cls ["Pattern"; "RestrictionValue"] -> add_facet O L cls name true v r = Ok x -> v = VNone \/ exists s, v = VStr s.
Proof.
  intros Hc H. unfold add_facet in H. apply bind_ok in H as (e & H & _).
  repeat destruct Hc as [<- |Hc]; try destruct Hc; destruct v; try (left; reflexivity); try (right; eexists; reflexivity); vm_compute in H; discriminate.
Qed.
End lib.

(** A simple type class with a number as fraction digits or in its enumeration. *)
Lemma simple_number O lim st x : xsd_simpleType O (lib_env lim) st = Ok x ->
  Forall (fun v => v = VNone \/ exists s, v = VStr s) (sc_enum st) /\
  (py_truthy (sc_fraction st) = true -> exists s, sc_fraction st = VStr s) /\
  (py_truthy (sc_fraction st) = false -> py_truthy (sc_pattern st) = true -> exists s, sc_pattern st = VStr s).
Proof.
  unfold xsd_simpleType. intros H. apply bind_ok in H as (x1 & _ & H). apply bind_ok in H as (n & _ & H).
  apply bind_ok in H as (x2 & _ & H). apply bind_ok in H as (r1 & _ & H). apply bind_ok in H as (b & _ & H).
  apply bind_ok in H as (r2 & _ & H). apply bind_ok in H as (r3 & He & H). apply bind_ok in H as (r4 & Hf & _). split; [|split].
  - apply Forall_forall. intros v I. destruct (foldM_ok_each _ _ _ _ He v I) as (b1 & b2 & Q). eapply enum_text; eauto.
  - intros Ht. rewrite Ht in Hf. apply facet_text in Hf; [|cbn; tauto]. destruct Hf as [Hf |Hf]; [rewrite Hf in Ht; discriminate|exact Hf].
  - intros Ht Hp. rewrite Ht, Hp in Hf. apply facet_text in Hf; [|cbn; tauto]. destruct Hf as [Hf |Hf]; [rewrite Hf in Hp; discriminate|exact Hf].
Qed.

Lemma class_number O lim E G n s doc st : In st (gs_simple s) -> generate_xsd n O (lib_env lim) E G s = Ok doc ->
  (forall v, In v (sc_enum st) -> v = VNone \/ exists x, v = VStr x) /\
  (py_truthy (sc_fraction st) = true -> exists x, sc_fraction st = VStr x).
Proof.
  intros I H. unfold generate_xsd in H. apply bind_ok in H as (x & H & _). unfold generate_xsdspec in H.
  apply bind_ok in H as (x0 & _ & H). apply bind_ok in H as (x1 & _ & H). apply bind_ok in H as (x2 & _ & H).
  apply bind_ok in H as (x3 & _ & H). apply bind_ok in H as (x4 & _ & H). apply bind_ok in H as (x5 & H5 & _).
  destruct (foldM_ok_each _ _ _ _ H5 st I) as (b & b' & Q). apply bind_ok in Q as (o & Q & _).
  destruct (simple_number _ _ _ _ Q) as (A & B & _). rewrite Forall_forall in A. auto.
Qed.

(** An element declared with an instance: its enumeration must be text. *)
Lemma elem_number O lim G c f x : dc_class G c f = false -> st_is_direct (f_type f) = true ->
  create_xsd_element O (lib_env lim) G c f = Ok x -> forall v, In v (tf_enum (f_type f)) -> v = VNone \/ exists s, v = VStr s.
Proof.
  intros Hg Hd H v I. unfold create_xsd_element in H. apply bind_ok in H as (e & _ & H). apply bind_ok in H as (e1 & _ & H).
  apply bind_ok in H as (e2 & _ & H). apply bind_ok in H as (e3 & _ & H). apply bind_ok in H as (e4 & _ & H).
  rewrite Hg in H. apply bind_ok in H as (r & H & _). unfold element_restriction in H.
  apply bind_ok in H as (r0 & _ & H). apply bind_ok in H as (b0 & _ & H). apply bind_ok in H as (r1 & _ & H).
  rewrite Hd in H. apply bind_ok in H as (r2 & H & _). destruct (foldM_ok_each _ _ _ _ H v I) as (b1 & b2 & Q). eapply enum_text; eauto.
Qed.
Lemma field_number O lim E G n s doc c d f v : In c (gs_complex s) -> e_cls E c = Some d -> In f (cd_fields d) -> is_plain f = true ->
  dc_class G c f = false -> carries_enumeration (f_type f) = true -> In ("enumeration", v) (declared G (f_type f)) ->
  generate_xsd n O (lib_env lim) E G s = Ok doc -> v = VNone \/ exists x, v = VStr x.
Proof.
  intros Hc Hd Hf Hp Hg Hce I H. unfold generate_xsd in H. apply bind_ok in H as (x & H & _). unfold generate_xsdspec in H.
  apply bind_ok in H as (x0 & _ & H). apply bind_ok in H as (x1 & _ & H). apply bind_ok in H as (x2 & _ & H).
  apply bind_ok in H as (x3 & _ & H). apply bind_ok in H as (x4 & _ & H). apply bind_ok in H as (x5 & _ & H). apply bind_ok in H as (x6 & H6 & _).
  destruct (foldM_ok_each _ _ _ _ H6 c Hc) as (b & b' & Q). apply bind_ok in Q as (o & Q & _). unfold xsd_complexType, get_class in Q.
  rewrite Hd in Q. cbn [bind] in Q. apply bind_ok in Q as (c1 & _ & Q). apply bind_ok in Q as (c2 & _ & Q). apply bind_ok in Q as (c3 & _ & Q).
  apply bind_ok in Q as (c4 & _ & Q). apply bind_ok in Q as (c5 & Q & _).
  assert (If : In f (filter is_plain (cd_fields d))) by (apply filter_In; now split).
  destruct (foldM_ok_each _ _ _ _ Q f If) as (b1 & b2 & Q1). apply bind_ok in Q1 as (e & Q1 & _).
  eapply elem_number; [exact Hg| |exact Q1|].
  - destruct (f_type f) as [[]|]; cbn in *; congruence.
  - assert (NE : forall A nm (g : A -> pyval) o, nm <> "enumeration" -> ~ In ("enumeration", v) (opt_facet nm g o)).
    { intros A nm g ov Ne. destruct ov; cbn; [|tauto]. intros [E1 |[]]. injection E1. congruence. }
    destruct (f_type f) as [st|]; [|discriminate]. destruct st as [cls ff|ff| | | | |cls ff|ci u| |]; try discriminate; cbn [declared] in I.
    + unfold str_facets in I. rewrite !in_app_iff in I. cbn [tf_enum].
      destruct I as [I |I]; [|exfalso; repeat (destruct I as [I |I]; [revert I; apply NE; discriminate|]); revert I; apply NE; discriminate].
      destruct (sf_enum ff); [|destruct I]. apply in_map_iff in I as (y & [= <-] & I). now apply in_map.
    + unfold num_facets in I. rewrite !in_app_iff in I. cbn [tf_enum].
      destruct I as [I |I]; [|exfalso; repeat (destruct I as [I |I]; [revert I; apply NE; discriminate|]); revert I; apply NE; discriminate].
      destruct (df_enum ff); [|destruct I]. apply in_map_iff in I as (y & [= <-] & I). exact I.
Qed.

Lemma attribute_hopeless O lim E G n s c d f doc : describes s c -> e_cls E c = Some d -> In f (cd_fields d) -> is_attr f = true ->
  generate_xsd n O (lib_env lim) E G s <> Ok doc.
Proof. intros H1 H2 H3 H4. apply generate_hopeless. left. exists c, d, f. auto. Qed.
Lemma include_hopeless O lim E G n s i doc : In i (gs_includes s) -> i = None \/ i = Some "" ->
  generate_xsd n O (lib_env lim) E G s <> Ok doc.
Proof. intros H1 H2. apply generate_hopeless. right. destruct H2; subst; auto. Qed.
Lemma fraction_hopeless O lim E G n s st z doc : In st (gs_simple s) -> sc_fraction st = VInt z -> z <> 0%Z ->
  generate_xsd n O (lib_env lim) E G s <> Ok doc.
Proof.
  intros I Hz Nz H. destruct (class_number _ _ _ _ _ _ _ _ I H) as [_ B]. rewrite Hz in B. destruct B as (x & Hx); [|discriminate].
  rewrite truthy_int. now apply Z.eqb_neq in Nz as ->.
Qed.
Lemma enumeration_hopeless O lim E G n s c d f z doc : In c (gs_complex s) -> e_cls E c = Some d -> In f (cd_fields d) -> is_plain f = true ->
  dc_class G c f = false -> carries_enumeration (f_type f) = true -> In ("enumeration", VInt z) (declared G (f_type f)) ->
  generate_xsd n O (lib_env lim) E G s <> Ok doc.
Proof.
  intros H1 H2 H3 H4 H5 H6 H7 H. destruct (field_number _ _ _ _ _ _ _ _ _ _ _ H1 H2 H3 H4 H5 H6 H7 H) as [C | (x & C)]; discriminate.
Qed.

(** Facets that are dropped. *)
Lemma lengths_dropped O lim E G k s c d f : schema_describable O E G s ->
  In c (gs_complex s) -> e_cls E c = Some d -> In f (cd_fields d) -> is_plain f = true -> dc_class G c f = false ->
  exists doc x, generate_xsd (8 + k) O (lib_env lim) E G s = Ok doc /\ declares (xd_root doc) (type_name c) (tag_or_name f) x /\
    forall name v, In (name, v) (facets_of x) -> ~ In name ["length"; "minLength"; "maxLength"; "whiteSpace"].
Proof.
  intros H Hc Hd Hf Hp Hg. destruct (facets_ok O lim E G k s c d f H Hc Hd Hf Hp Hg) as (doc & x & H1 & H2 & H3).
  exists doc, x. split; [assumption|]. split; [assumption|]. intros name v I. rewrite H3 in I. apply in_map_iff in I as ([n v'] & [= <- <-] & I).
  apply filter_In in I as [_ I]. unfold carried in I. cbn [fst snd] in *. destruct (String.eqb_spec n "enumeration") as [-> |_]; [cbn; intuition discriminate|].
  intros J. apply str_in_spec in J. rewrite J in I. discriminate.
Qed.
Lemma zero_dropped O lim E G k s c d f name : schema_describable O E G s ->
  In c (gs_complex s) -> e_cls E c = Some d -> In f (cd_fields d) -> is_plain f = true -> dc_class G c f = false ->
  name <> "enumeration" -> (forall v, In (name, v) (declared G (f_type f)) -> v = VInt 0) ->
  exists doc x, generate_xsd (8 + k) O (lib_env lim) E G s = Ok doc /\ declares (xd_root doc) (type_name c) (tag_or_name f) x /\
    ~ In name (map fst (facets_of x)).
Proof.
  intros H Hc Hd Hf Hp Hg Ne Hz. destruct (facets_ok O lim E G k s c d f H Hc Hd Hf Hp Hg) as (doc & x & H1 & H2 & H3).
  exists doc, x. split; [assumption|]. split; [assumption|]. rewrite H3, map_map. cbn [fst]. intros I.
  apply in_map_iff in I as ([n v'] & <- & I). apply filter_In in I as [I1 I2]. cbn [fst] in *. rewrite (Hz _ I1) in I2.
  unfold carried in I2. cbn [fst snd] in I2. apply String.eqb_neq in Ne. rewrite Ne in I2. apply andb_true_iff in I2 as [_ I2]. discriminate.
Qed.
Lemma enumeration_dropped O lim E G k s c d f : schema_describable O E G s ->
  In c (gs_complex s) -> e_cls E c = Some d -> In f (cd_fields d) -> is_plain f = true -> dc_class G c f = false ->
  carries_enumeration (f_type f) = false ->
  exists doc x, generate_xsd (8 + k) O (lib_env lim) E G s = Ok doc /\ declares (xd_root doc) (type_name c) (tag_or_name f) x /\
    ~ In "enumeration" (map fst (facets_of x)).
Proof.
  intros H Hc Hd Hf Hp Hg Ne. destruct (facets_ok O lim E G k s c d f H Hc Hd Hf Hp Hg) as (doc & x & H1 & H2 & H3).
  exists doc, x. split; [assumption|]. split; [assumption|]. rewrite H3, map_map. cbn [fst]. intros I.
  apply in_map_iff in I as ([n v'] & E1 & I). apply filter_In in I as [I1 I2]. cbn [fst] in *. subst n.
  unfold carried in I2. cbn [fst] in I2. rewrite Ne in I2. discriminate.
Qed.
