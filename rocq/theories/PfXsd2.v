(** py2xsd: complex types, simple types, top-level elements and schemas. *)
From Coq Require Import String Ascii List ZArith NArith Bool Lia.
From Verif Require Import PyBase PfBase PyRe Xml PyVal XsdSimple XsdComplex PyHttp Soap Client LibClasses Py2Xsd SpecXsd SpecRound
  PfSimple PfRender PfRender2 PfRound PfLeaf PfLib PfLibRound PfXsd PfXsdRt.
Import ListNotations.
Open Scope string_scope.
Open Scope list_scope.
Open Scope nat_scope.

Lemma Forall2_map_same {A B C} (f : A -> B) (g : A -> C) (R : B -> C -> Prop) l :
  Forall (fun a => R (f a) (g a)) l -> Forall2 R (map f l) (map g l).
Proof. induction 1; cbn; constructor; auto. Qed.

(** ** Complex types *)
Lemma seq_new O lim : construct O (lib_env lim) (xs "Sequence") [] = Ok (o_seq []).
Proof. vm_compute. reflexivity. Qed.
Lemma seq_append O lim l fs :
  py_append O (lib_env lim) (o_seq l) "elements" (VObj (xs "Element") None fs) = Ok (o_seq (l ++ [VObj (xs "Element") None fs])).
Proof. vm_compute. reflexivity. Qed.
Lemma ct_new O lim : construct O (lib_env lim) (xs "XSDComplexType") [] = Ok (o_ct None VNone VNone VNone).
Proof. vm_compute. reflexivity. Qed.
Lemma ct_set_name O lim s : py_set O (lib_env lim) (o_ct None VNone VNone VNone) "name" (VStr s) = Ok (o_ct (Some s) VNone VNone VNone).
Proof. vm_compute. reflexivity. Qed.
Definition ct_with (name : option string) (i : indicator) (s : pyval) : pyval :=
  match i with ISequence => o_ct name s VNone VNone | IChoice => o_ct name VNone s VNone | IAll => o_ct name VNone VNone s end.
Lemma ct_set_ind O lim name i l : py_set O (lib_env lim) (o_ct name VNone VNone VNone) (ind_name i) (o_seq l) = Ok (ct_with name i (o_seq l)).
Proof. destruct i; vm_compute; reflexivity. Qed.

Lemma seq_fill O lim G c l : forall acc, (forall f, In f l -> field_describable O G c f) ->
  foldM (fun s f => e <- create_xsd_element O (lib_env lim) G c f ;; py_append O (lib_env lim) s "elements" e) (o_seq acc) l =
  Ok (o_seq (acc ++ map (elem_of O G c) l)).
Proof.
  induction l as [|f l IH]; intros acc H; cbn [foldM map]; [now rewrite app_nil_r|].
  rewrite create_ok by (apply H; now left). cbn [bind]. unfold elem_of at 1, o_el. rewrite seq_append. cbn [bind].
  rewrite IH by (intros; apply H; now right). rewrite <- app_assoc. reflexivity.
Qed.

Lemma filter_none {A} (p : A -> bool) l : Forall (fun x => p x = false) l -> filter p l = [].
Proof. induction 1 as [|x l E _ IH]; cbn; [reflexivity|]. now rewrite E. Qed.

Definition ct_of (O : oracle) (G : decls) (named : bool) (c : string) (d : classdef) : pyval :=
  ct_with (when named (type_name c)) (cd_ind d) (o_seq (map (elem_of O G c) (filter is_plain (cd_fields d)))).
Lemma complex_ok O lim E G c d named : e_cls E c = Some d -> class_describable O E G c ->
  xsd_complexType O (lib_env lim) E G c named = Ok (ct_of O G named c d).
Proof.
  intros Hd (d' & Hd' & Hc & Ha & Hf). assert (d' = d) as -> by congruence.
  unfold xsd_complexType, get_class. rewrite Hd. cbn [bind]. rewrite ct_new. cbn [bind].
  rewrite uncapitalize_name by apply Hc. cbn [bind].
  match goal with |- (ct <- ?M ;; _) = _ => assert (X : M = Ok (o_ct (when named (type_name c)) VNone VNone VNone)) end.
  { destruct named; [apply ct_set_name|reflexivity]. }
  rewrite X. clear X. cbn [bind]. rewrite (filter_none is_attr) by exact Ha. cbn [foldM bind]. rewrite seq_new. cbn [bind].
  rewrite seq_fill by (intros f [I1 I2]%filter_In; now apply Hf). cbn [bind app]. apply ct_set_ind.
Qed.

Lemma render_seq O lim n tag ns l G c : (forall f, In f l -> field_describable O G c f) ->
  render_obj (S (S (S (S (S n))))) O (lib_env lim) (xs "Sequence") (Elem tag [] []) (o_seq (map (elem_of O G c) l)) ns efd_q =
  Ok (Elem tag [] (map (describe_element O G c) l)).
Proof.
  intros H. eapply eq_trans; [eapply render_parts with (parts := [([], map (describe_element O G c) l)]);
    [vm_compute; reflexivity|reflexivity|reflexivity| |constructor]|].
  2:{ cbn [flat_map fst snd app]. now rewrite !app_nil_r. }
  cbn [cd_fields]. parts_goal.
  eapply adds_list with (n' := ns_xsd); try reflexivity; try discriminate; [now left|exact no_brace_xsd|].
  apply Forall2_map_same, Forall_forall. intros f I. split; [discriminate|]. now apply render_elem_of, H.
Qed.

Definition renders_opt (O : oracle) (L : env) (n : nat) (cls tag : string) (v : pyval) (out : list node) : Prop :=
  v = VNone /\ out = [] \/
  exists fs x, v = VObj (xs cls) None fs /\ out = [x] /\
    render_obj n O L (xs cls) (Elem (clark ns_xsd tag) [] []) v ns_x efd_q = Ok x.
Lemma adds_opt O lim n f cls v out : f_kind f = KElement -> f_tag f = None -> ncname_ok (f_name f) = true ->
  f_type f = xs_t cls -> f_ns f = None -> renders_opt O (lib_env lim) n cls (f_name f) v out ->
  adds O (lib_env lim) (render_obj n O (lib_env lim)) ns_x efd_q f v ([], out).
Proof.
  intros K T N Ty Ns [[-> ->] | (fs & x & -> & -> & R)]; [now apply adds_elem_none|].
  eapply adds_elem with (n' := ns_xsd); try eassumption; try discriminate; try reflexivity.
  - unfold eff_ns. rewrite Ns. reflexivity.
  - exact no_brace_xsd.
Qed.
Lemma render_ct_parts O lim n tag ns name s c a sn cn an : text_opt name ->
  renders_opt O (lib_env lim) n "Sequence" "sequence" s sn -> renders_opt O (lib_env lim) n "Sequence" "choice" c cn ->
  renders_opt O (lib_env lim) n "Sequence" "all" a an ->
  render_obj (S n) O (lib_env lim) (xs "XSDComplexType") (Elem tag [] []) (o_ct name s c a) ns efd_q =
  Ok (Elem tag (opt_attr "name" name) (sn ++ cn ++ an)).
Proof.
  intros Hn Hs Hc Ha.
  eapply eq_trans; [eapply render_parts with (parts :=
     [(opt_attr "name" name, []); ([], sn); ([], cn); ([], an); ([], []); ([], []); ([], [])]);
     [vm_compute; reflexivity|reflexivity|reflexivity| |]|].
  3:{ cbn [flat_map fst snd app]. now rewrite !app_nil_r. }
  - cbn [cd_fields]. parts_goal.
    + destruct name as [x|]; [|now apply adds_attr_none]. eapply adds_attr; try reflexivity; [discriminate|discriminate|now apply Hn].
    + eapply adds_opt; try reflexivity. exact Hs.
    + eapply adds_opt; try reflexivity. exact Hc.
    + eapply adds_opt; try reflexivity. exact Ha.
    + now apply adds_elem_none.
    + eapply adds_list with (n' := ns_xsd); try reflexivity; try discriminate; [now left|exact no_brace_xsd|constructor].
    + eapply adds_list with (n' := ns_xsd); try reflexivity; try discriminate; [now left|exact no_brace_xsd|constructor].
  - destruct name; cbn; repeat constructor; intros [].
Qed.

Lemma render_ct O lim n tag ns E G named c d : e_cls E c = Some d -> class_describable O E G c ->
  render_obj (S (S (S (S (S (S n)))))) O (lib_env lim) (xs "XSDComplexType") (Elem tag [] []) (ct_of O G named c d) ns efd_q =
  Ok (Elem tag (if named then [("name", type_name c)] else [])
        [xel (indicator_tag (cd_ind d)) [] (map (describe_element O G c) (filter is_plain (cd_fields d)))]).
Proof.
  intros Hd (d' & Hd' & Hc & Ha & Hf). assert (d' = d) as -> by congruence. clear Hd'.
  unfold ct_of. set (l := filter is_plain (cd_fields d)).
  assert (Hl : forall f, In f l -> field_describable O G c f) by (intros f [I1 I2]%filter_In; now apply Hf).
  clearbody l. set (x := xel _ _ _).
  assert (Hx : renders_opt O (lib_env lim) (S (S (S (S (S n))))) "Sequence" (indicator_tag (cd_ind d)) (o_seq (map (elem_of O G c) l)) [x]).
  { right. eexists _, _. split; [reflexivity|]. split; [reflexivity|]. now apply render_seq. }
  assert (Hnone : forall t, renders_opt O (lib_env lim) (S (S (S (S (S n))))) "Sequence" t VNone []) by (intros; now left).
  assert (Hn : text_opt (when named (type_name c))).
  { intros s E1. destruct named; [|discriminate]. injection E1 as <-. apply text_type_name, Hc. }
  clearbody x.
  assert (En : (if named then [("name", type_name c)] else []) = opt_attr "name" (when named (type_name c))) by (destruct named; reflexivity).
  rewrite En. clear En. unfold ct_with.
  destruct (cd_ind d); cbn [indicator_tag] in Hx;
    (eapply eq_trans; [eapply render_ct_parts; [exact Hn|first [exact Hx|apply Hnone]..]|reflexivity]).
Qed.
Lemma rt_ct_of O lim n E G named c d : e_cls E c = Some d -> class_describable O E G c ->
  rt_at O lim (S (S (S (S (S (S n)))))) (xs "XSDComplexType") (ct_of O G named c d).
Proof.
  intros Hd (d' & Hd' & Hc & Ha & Hf). assert (d' = d) as -> by congruence. unfold ct_of.
  assert (S1 : rt_at O lim (S (S (S (S (S n))))) (xs "Sequence") (o_seq (map (elem_of O G c) (filter is_plain (cd_fields d))))).
  { apply rt_seq, Forall_forall. intros v (f & <- & [I1 I2]%filter_In)%in_map_iff. now apply rt_elem_of, Hf. }
  assert (Hn : text_opt (when named (type_name c))).
  { intros s E1. destruct named; [|discriminate]. injection E1 as <-. apply text_type_name, Hc. }
  unfold ct_with. destruct (cd_ind d); apply rt_ct; auto.
Qed.
Lemma render_class O lim n ns E G named c : class_describable O E G c ->
  exists fs, xsd_complexType O (lib_env lim) E G c named = Ok (VObj (xs "XSDComplexType") None fs) /\
    render_obj (S (S (S (S (S (S n)))))) O (lib_env lim) (xs "XSDComplexType") (Elem (clark ns_xsd "complexType") [] [])
      (VObj (xs "XSDComplexType") None fs) ns efd_q = Ok (describe_class O G named c (class_of E c)) /\
    rt_at O lim (S (S (S (S (S (S n)))))) (xs "XSDComplexType") (VObj (xs "XSDComplexType") None fs).
Proof.
  intros H. pose proof H as (d & Hd & _). pose proof (rt_ct_of O lim n E G named c d Hd H) as T. pose proof (complex_ok O lim E G c d named Hd H) as C.
  pose proof (render_ct O lim n (clark ns_xsd "complexType") ns E G named c d Hd H) as R.
  unfold class_of. rewrite Hd. unfold ct_of, ct_with in C, R, T. destruct (cd_ind d) eqn:Ei; eexists; (split; [exact C|]);
    (split; [|exact T]); (etransitivity; [exact R|]); unfold describe_class; rewrite Ei; reflexivity.
Qed.

(** ** Simple type classes *)
Lemma st_set_name O lim s : (x <- construct O (lib_env lim) (xs "SimpleType") [] ;; py_set O (lib_env lim) x "name" (VStr s)) =
  Ok (o_st (Some s) VNone).
Proof. vm_compute. reflexivity. Qed.
Lemma st_set_restr O lim name fs : py_set O (lib_env lim) (o_st name VNone) "restriction" (VObj (xs "Restriction") None fs) =
  Ok (o_st name (VObj (xs "Restriction") None fs)).
Proof. destruct name; vm_compute; reflexivity. Qed.

Definition st_text (v : pyval) : option string := match v with VStr (String a s) => Some (String a s) | _ => None end.
Definition class_restr (st : stclass) : pyval :=
  o_restr (type_ref (TSimple (sc_base st))) (map (o_facet "Enumeration") (strings (sc_enum st)))
    (match st_text (sc_fraction st) with Some _ => None | None => st_text (sc_pattern st) end)
    None None None None (st_text (sc_fraction st)) None.

Lemma add_none O lim cls name v r : add_facet O (lib_env lim) cls name false v r = Ok r.
Proof. reflexivity. Qed.

Lemma simple_ok O lim st : simple_describable st ->
  xsd_simpleType O (lib_env lim) st = Ok (o_st (Some (type_name (sc_name st))) (class_restr st)).
Proof.
  intros (Hn & Hb & He & Hf & Hp). unfold xsd_simpleType.
  pose proof (st_set_name O lim (type_name (sc_name st))) as N. unfold bind in N at 1.
  destruct (construct O (lib_env lim) (xs "SimpleType") []) as [x|]; [|discriminate]. cbn [bind].
  rewrite uncapitalize_name by apply Hn. cbn [bind]. rewrite N. cbn [bind].
  pose proof (new_restr O lim (type_ref (TSimple (sc_base st)))) as R. unfold bind in R at 1.
  destruct (construct O (lib_env lim) (xs "Restriction") []) as [r|]; [|discriminate]. cbn [bind].
  destruct (get_type_ok _ Hb) as [-> _]. cbn [bind]. rewrite R. cbn [bind].
  match goal with |- (r <- ?M ;; _) = _ => assert (X : M = Ok (o_restr (type_ref (TSimple (sc_base st)))
     (map (o_facet "Enumeration") (strings (sc_enum st))) None None None None None None None)) end.
  { rewrite (proj1 (texts_strings _ He)) at 1. apply (add_enums O lim _ None None None None None None None _ []). }
  rewrite X. clear X. cbn [bind].
  match goal with |- (r <- ?M ;; _) = _ => assert (X : M = Ok (class_restr st)) end.
  { unfold class_restr. destruct Hf as [-> | (s & -> & _)]; [|destruct s as [|a s]].
    - destruct Hp as [-> | (p & -> & _)]; [reflexivity|]. destruct p; [reflexivity|]. exact (add_pat _ _ _ _ _ _ _ _ _ _ true _).
    - destruct Hp as [-> | (p & -> & _)]; [reflexivity|]. destruct p; [reflexivity|]. exact (add_pat _ _ _ _ _ _ _ _ _ _ true _).
    - exact (add_fr _ _ _ _ _ _ _ _ _ _ true _). }
  rewrite X. cbn [bind]. apply st_set_restr.
Qed.

Lemma render_simple O lim n st : simple_describable st ->
  render_obj (S (S (S n))) O (lib_env lim) (xs "SimpleType") (Elem (clark ns_xsd "simpleType") [] [])
    (o_st (Some (type_name (sc_name st))) (class_restr st)) ns_x efd_q = Ok (describe_simple st).
Proof.
  intros (Hn & Hb & He & Hf & Hp).
  assert (Tf : text_opt (st_text (sc_fraction st))).
  { destruct Hf as [-> | (s & -> & T)]; [intros s [=]|]. destruct s; intros x [=]; subst; assumption. }
  assert (Tp : text_opt (st_text (sc_pattern st))).
  { destruct Hp as [-> | (s & -> & T)]; [intros s [=]|]. destruct s; intros x [=]; subst; assumption. }
  unfold class_restr, o_restr. cbv zeta. eapply eq_trans; [eapply render_st|].
  - intros s [= <-]. apply text_type_name, Hn.
  - apply (render_restr O lim n _ _ (strings (sc_enum st)) (match st_text (sc_fraction st) with Some _ => None | None => st_text (sc_pattern st) end)
      None None None None (st_text (sc_fraction st)) None); try (intros s [=]; fail); [now apply get_type_ok|now apply texts_strings| |exact Tf].
    destruct (st_text (sc_fraction st)); [intros z [=]|exact Tp].
  - unfold describe_simple, xel, restr_node. cbn [opt_attr]. repeat f_equal.
    destruct Hf as [-> | (s & -> & _)]; [|destruct s]; destruct Hp as [-> | (p & -> & _)]; try destruct p; reflexivity.
Qed.

Lemma rt_simple O lim n st : simple_describable st ->
  rt_at O lim (S (S (S n))) (xs "SimpleType") (o_st (Some (type_name (sc_name st))) (class_restr st)).
Proof.
  intros (Hn & Hb & He & Hf & Hp).
  assert (Tf : text_opt (st_text (sc_fraction st))).
  { destruct Hf as [-> | (s & -> & T)]; [intros s [=]|]. destruct s; intros x [=]; subst; assumption. }
  assert (Tp : text_opt (st_text (sc_pattern st))).
  { destruct Hp as [-> | (s & -> & T)]; [intros s [=]|]. destruct s; intros x [=]; subst; assumption. }
  apply rt_st; [intros s [= <-]; apply text_type_name, Hn|].
  apply (rt_restr O lim n _ (strings (sc_enum st)) (match st_text (sc_fraction st) with Some _ => None | None => st_text (sc_pattern st) end)
      None None None None (st_text (sc_fraction st)) None); try (intros s [=]; fail); [now apply get_type_ok|now apply texts_strings| |exact Tf].
  destruct (st_text (sc_fraction st)); [intros z [=]|exact Tp].
Qed.

(** ** Top-level elements *)
Definition toplevel_ref (v : string) : string := if String.prefix "sns:" v then v else ("sns:" ++ v)%string.
Lemma toplevel_ok O lim E G n p : toplevel_describable O E G p ->
  exists fs, generate_element O (lib_env lim) E G (fst p) (snd p) = Ok (VObj (xs "Element") None fs) /\
    render_obj (S (S (S (S (S (S (S n))))))) O (lib_env lim) (xs "Element") (Elem (clark ns_xsd "element") [] [])
      (VObj (xs "Element") None fs) ns_x efd_q = Ok (describe_toplevel O E G p) /\
    rt_at O lim (S (S (S (S (S (S (S n))))))) (xs "Element") (VObj (xs "Element") None fs).
Proof.
  destruct p as [name el]. cbn [fst snd]. unfold toplevel_describable, describe_toplevel. cbn [fst snd].
  intros (Hn & Hs & Ht). unfold generate_element. rewrite new_el. cbn [bind]. rewrite el_set_name. cbn [bind].
  set (sub := option_map toplevel_ref (ge_subst el)).
  match goal with |- exists fs, (e <- ?M ;; _) = _ /\ _ =>
    assert (X : M = Ok (o_el (VStr name) VNone VNone VNone VNone (vs sub) VNone VNone)) end.
  { subst sub. destruct (ge_subst el); [|reflexivity]. apply el_set_subst. }
  rewrite X. clear X. cbn [bind].
  assert (Tsub : text_opt sub).
  { intros s E1. subst sub. destruct (ge_subst el) as [v|]; [|discriminate]. injection E1 as <-.
    unfold toplevel_ref. destruct (String.prefix "sns:" v); [now apply Hs|]. apply text_app; [reflexivity|now apply Hs]. }
  assert (Esub : (match ge_subst el with None => [] | Some v => [("substitutionGroup", if String.prefix "sns:" v then v else ("sns:" ++ v)%string)] end)
                 = opt_attr "substitutionGroup" sub) by (subst sub; destruct (ge_subst el); reflexivity).
  rewrite Esub. clear Esub. clearbody sub.
  destruct (ge_class el).
  - destruct (get_type_ok _ Ht) as [-> Tt]. cbn [bind]. rewrite el_set_type. eexists. split; [reflexivity|]. split.
    2:{ apply (rt_el O lim _ name (Some (type_ref (ge_type el))) None ONone None sub VNone VNone); [exact Hn|intros s [= <-]; exact Tt|exact Tsub|now left|now left]. }
    eapply eq_trans; [apply (render_el O lim _ _ ns_x name (Some (type_ref (ge_type el))) None ONone None sub VNone VNone [] [])|reflexivity].
    + exact Hn.
    + intros s [= <-]. exact Tt.
    + exact Tsub.
    + left. split; reflexivity.
    + left. split; reflexivity.
  - destruct Ht as (c & -> & Hc). destruct (render_class O lim n ns_x E G false c Hc) as (fs & -> & R & T). cbn [bind].
    rewrite el_set_ct. eexists. split; [reflexivity|]. split.
    2:{ apply (rt_el O lim _ name None None ONone None sub VNone (VObj (xs "XSDComplexType") None fs)); [exact Hn|intros s [=]|exact Tsub|now left|now right]. }
    eapply eq_trans; [apply (render_el O lim _ _ ns_x name None None ONone None sub VNone (VObj (xs "XSDComplexType") None fs) []
       [describe_class O G false c (class_of E c)])|reflexivity].
    + exact Hn.
    + intros s [=].
    + exact Tsub.
    + left. split; reflexivity.
    + right. eexists _, _. split; [reflexivity|]. split; [reflexivity|]. exact R.
Qed.

(** ** Schemas *)
Lemma schema_new O lim tns efd : efd = "qualified" \/ efd = "unqualified" ->
  (x <- construct O (lib_env lim) (xs "Schema") [] ;; x <- py_set O (lib_env lim) x "targetNamespace" (VStr tns) ;;
   py_set O (lib_env lim) x "elementFormDefault" (VStr efd)) = Ok (o_schema tns efd [] [] [] [] []).
Proof. intros [-> | ->]; vm_compute; reflexivity. Qed.
Lemma app_import O lim tns efd i1 i2 s c e fs : py_append O (lib_env lim) (o_schema tns efd i1 i2 s c e) "imports" (VObj (xs "Import") None fs) =
  Ok (o_schema tns efd (i1 ++ [VObj (xs "Import") None fs]) i2 s c e).
Proof. vm_compute. reflexivity. Qed.
Lemma app_include O lim tns efd i1 i2 s c e fs : py_append O (lib_env lim) (o_schema tns efd i1 i2 s c e) "includes" (VObj (xs "Include") None fs) =
  Ok (o_schema tns efd i1 (i2 ++ [VObj (xs "Include") None fs]) s c e).
Proof. vm_compute. reflexivity. Qed.
Lemma app_simple O lim tns efd i1 i2 s c e fs : py_append O (lib_env lim) (o_schema tns efd i1 i2 s c e) "simpleTypes" (VObj (xs "SimpleType") None fs) =
  Ok (o_schema tns efd i1 i2 (s ++ [VObj (xs "SimpleType") None fs]) c e).
Proof. vm_compute. reflexivity. Qed.
Lemma app_complex O lim tns efd i1 i2 s c e fs : py_append O (lib_env lim) (o_schema tns efd i1 i2 s c e) "complexTypes" (VObj (xs "XSDComplexType") None fs) =
  Ok (o_schema tns efd i1 i2 s (c ++ [VObj (xs "XSDComplexType") None fs]) e).
Proof. vm_compute. reflexivity. Qed.
Lemma app_element O lim tns efd i1 i2 s c e fs : py_append O (lib_env lim) (o_schema tns efd i1 i2 s c e) "elements" (VObj (xs "Element") None fs) =
  Ok (o_schema tns efd i1 i2 s c (e ++ [VObj (xs "Element") None fs])).
Proof. vm_compute. reflexivity. Qed.

Definition location (l : option string) : option string := match l with Some "" => None | _ => l end.
Lemma import_new O lim ns l :
  (o <- construct O (lib_env lim) (xs "Import") [] ;; o <- py_set O (lib_env lim) o "namespace" (VStr ns) ;; set_location O (lib_env lim) o l) =
  Ok (o_import (location l) ns).
Proof. destruct l as [[|a l]|]; vm_compute; reflexivity. Qed.
Lemma include_new O lim l : l <> "" ->
  (o <- construct O (lib_env lim) (xs "Include") [] ;; set_location O (lib_env lim) o (Some l)) = Ok (o_include l).
Proof. destruct l; [congruence|]. intros _. vm_compute. reflexivity. Qed.

Lemma render_import O lim n ns l : text ns -> (forall x, l = Some x -> text x) ->
  render_obj (S n) O (lib_env lim) (xs "Import") (Elem (clark ns_xsd "import") [] []) (o_import (location l) ns) ns_x efd_q =
  Ok (xel "import" (location_attr l ++ [("namespace", ns)]) []).
Proof.
  intros Hn Hl. eapply eq_trans; [eapply render_parts with (parts := [(location_attr l, []); ([("namespace", ns)], [])]);
    [vm_compute; reflexivity|reflexivity|reflexivity| |]|].
  3:{ cbn [flat_map fst snd app]. reflexivity. }
  - cbn [cd_fields]. parts_goal.
    + destruct l as [[|a l]|]; try (now apply adds_attr_none). eapply adds_attr; try reflexivity; [discriminate|discriminate|now apply Hl].
    + eapply adds_attr; try reflexivity; [discriminate|discriminate|exact Hn].
  - destruct l as [[|a l]|]; cbn; repeat constructor; cbn; intuition discriminate.
Qed.
Lemma render_include O lim n l : proper_name l ->
  render_obj (S n) O (lib_env lim) (xs "Include") (Elem (clark ns_xsd "include") [] []) (o_include l) ns_x efd_q =
  Ok (xel "include" (location_attr (Some l)) []).
Proof.
  intros [Hn Hl]. eapply eq_trans; [eapply render_parts with (parts := [([("schemaLocation", l)], [])]);
    [vm_compute; reflexivity|reflexivity|reflexivity| |]|].
  - cbn [cd_fields]. parts_goal. eapply adds_attr; try reflexivity; [discriminate|discriminate|exact Hl].
  - repeat constructor; intros [].
  - destruct l; [congruence|reflexivity].
Qed.

(** A list of objects of one class, and what they render to. *)
Definition rendered (O : oracle) (L : env) (n : nat) (cls tag : string) (objs : list pyval) (out : list node) : Prop :=
  Forall2 (fun v x => (v <> VNil /\ render_obj n O L (xs cls) (Elem (clark ns_xsd tag) [] []) v ns_x efd_q = Ok x) /\
                      rt_typed O L (TComplex (xs cls)) v /\ vdepth v <= n) objs out.
Lemma rendered_render O L n cls tag objs out : rendered O L n cls tag objs out ->
  Forall2 (fun v x => v <> VNil /\ render_obj n O L (xs cls) (Elem (clark ns_xsd tag) [] []) v ns_x efd_q = Ok x) objs out.
Proof. induction 1 as [|v x l l' [H _] _ IH]; constructor; assumption. Qed.
Lemma rendered_rt O lim n cls tag objs out : rendered O (lib_env lim) n cls tag objs out -> Forall (rt_at O lim n (xs cls)) objs.
Proof. induction 1 as [|v x l l' [_ H] _ IH]; constructor; assumption. Qed.

Lemma fill {A} O L n cls tag (step : pyval -> A -> res pyval) (mk : list pyval -> pyval) (out : A -> node) (P : A -> Prop) :
  (forall acc a, P a -> exists fs, step (mk acc) a = Ok (mk (acc ++ [VObj (xs cls) None fs])) /\
      render_obj n O L (xs cls) (Elem (clark ns_xsd tag) [] []) (VObj (xs cls) None fs) ns_x efd_q = Ok (out a) /\
      rt_typed O L (TComplex (xs cls)) (VObj (xs cls) None fs) /\ vdepth (VObj (xs cls) None fs) <= n) ->
  forall l acc, Forall P l -> exists objs, foldM step (mk acc) l = Ok (mk (acc ++ objs)) /\ rendered O L n cls tag objs (map out l).
Proof.
  intros S l. induction l as [|a l IH]; intros acc H; cbn [foldM map].
  - exists []. rewrite app_nil_r. split; [reflexivity|constructor].
  - apply Forall_cons_iff in H as [Ha Hl]. destruct (S acc a Ha) as (fs & -> & R & T). cbn [bind].
    destruct (IH (acc ++ [VObj (xs cls) None fs]) Hl) as (objs & -> & Ro). exists (VObj (xs cls) None fs :: objs).
    rewrite <- app_assoc. split; [reflexivity|]. constructor; [split; [split; [discriminate|exact R]|exact T]|exact Ro].
Qed.

Definition K : nat := 7.
Lemma schema_object O lim E G n s : schema_describable O E G s ->
  let L := lib_env lim in let m := (K + n)%nat in
  exists i1 i2 ss cs es,
    generate_xsdspec O L E G s = Ok (o_schema (gs_tns s) (gs_efd s) i1 i2 ss cs es) /\
    rendered O L m "Import" "import" i1 (map (fun i => xel "import" (location_attr (snd i) ++ [("namespace", fst i)]) []) (gs_imports s)) /\
    rendered O L m "Include" "include" i2 (map (fun i => xel "include" (location_attr i) []) (gs_includes s)) /\
    rendered O L m "SimpleType" "simpleType" ss (map describe_simple (gs_simple s)) /\
    rendered O L m "XSDComplexType" "complexType" cs (map (fun c => describe_class O G true c (class_of E c)) (gs_complex s)) /\
    rendered O L m "Element" "element" es (map (describe_toplevel O E G) (gs_elements s)).
Proof.
  intros (Ht & He & Hi & Hn & Hs & Hc & Hl) L m. set (t := gs_tns s). set (e := gs_efd s).
  unfold generate_xsdspec. fold L.
  pose proof (schema_new O lim t e He) as N. fold L in N. unfold bind in N at 1.
  destruct (construct O L (xs "Schema") []) as [x|]; [|discriminate]. cbn [bind] in *.
  fold t e. unfold bind in N at 1. destruct (py_set O L x "targetNamespace" (VStr t)); [|discriminate]. cbn [bind] in *. rewrite N.
  cbn [bind]. clear N.
  destruct (fill O L m "Import" "import" (fun x i => o <- construct O L (xs "Import") [] ;; o <- py_set O L o "namespace" (VStr (fst i)) ;;
     o <- set_location O L o (snd i) ;; py_append O L x "imports" o) (fun a => o_schema t e a [] [] [] [])
     (fun i => xel "import" (location_attr (snd i) ++ [("namespace", fst i)]) [])
     (fun i => text (fst i) /\ forall l, snd i = Some l -> text l)) with (acc := @nil pyval) (2 := Hi) as (i1 & E1 & R1).
  { intros acc i [P1 P2]. cbn beta. exists [("schemaLocation", vs (location (snd i))); ("namespace", VStr (fst i))].
    pose proof (import_new O lim (fst i) (snd i)) as M. fold L in M. split.
    - unfold bind in M at 1. destruct (construct O L (xs "Import") []) as [o|]; [|discriminate]. cbn [bind] in *.
      unfold bind in M at 1. destruct (py_set O L o "namespace" (VStr (fst i))) as [o2|]; [|discriminate]. cbn [bind] in *.
      rewrite M. cbn [bind]. apply app_import.
    - split; [apply (render_import O lim (6 + n)); assumption|]. apply (rt_import O lim (6 + n)); [|assumption].
      intros z. destruct (snd i) as [[|a0 l0]|]; [discriminate| |discriminate]. intros [= <-]. now apply P2. }
  unfold build_imports. rewrite E1. clear E1. cbn [bind app].
  destruct (fill O L m "Include" "include" (fun x i => o <- construct O L (xs "Include") [] ;; 
     o <- set_location O L o i ;; py_append O L x "includes" o) (fun a => o_schema t e i1 a [] [] [])
     (fun i => xel "include" (location_attr i) []) (fun i => exists l, i = Some l /\ proper_name l)) with (acc := @nil pyval) (2 := Hn) as (i2 & E2 & R2).
  { intros acc i (l & -> & P). cbn beta. exists [("schemaLocation", VStr l)].
    pose proof (include_new O lim l (proj1 P)) as M. fold L in M. split.
    - unfold bind in M at 1. destruct (construct O L (xs "Include") []) as [o|]; [|discriminate]. cbn [bind] in *.
      rewrite M. cbn [bind]. apply app_include.
    - split; [apply (render_include O lim (6 + n)); assumption|]. apply (rt_include O lim (6 + n)), P. }
  unfold build_includes. rewrite E2. clear E2. cbn [bind app].
  destruct (fill O L m "SimpleType" "simpleType" (fun x st => o <- xsd_simpleType O L st ;; py_append O L x "simpleTypes" o)
     (fun a => o_schema t e i1 i2 a [] []) describe_simple simple_describable) with (acc := @nil pyval) (2 := Hs) as (ss & E3 & R3).
  { intros acc st P. cbn beta. eexists. split.
    - subst L. rewrite (simple_ok O lim st P). cbn [bind]. unfold o_st. apply app_simple.
    - split; [apply (render_simple O lim (4 + n) st P)|apply (rt_simple O lim (4 + n) st P)]. }
  rewrite E3. clear E3. cbn [bind app].
  destruct (fill O L m "XSDComplexType" "complexType" (fun x c => o <- xsd_complexType O L E G c true ;; py_append O L x "complexTypes" o)
     (fun a => o_schema t e i1 i2 ss a []) (fun c => describe_class O G true c (class_of E c)) (class_describable O E G)) with (acc := @nil pyval) (2 := Hc) as (cs & E4 & R4).
  { intros acc c P. cbn beta. destruct (render_class O lim (1 + n) ns_x E G true c P) as (fs & C & R). exists fs. split; [|exact R].
    subst L. rewrite C. cbn [bind]. apply app_complex. }
  rewrite E4. clear E4. cbn [bind app].
  destruct (fill O L m "Element" "element" (fun x p => o <- generate_element O L E G (fst p) (snd p) ;; py_append O L x "elements" o)
     (fun a => o_schema t e i1 i2 ss cs a) (describe_toplevel O E G) (toplevel_describable O E G)) with (acc := @nil pyval) (2 := Hl) as (es & E5 & R5).
  { intros acc p P. cbn beta. destruct (toplevel_ok O lim E G n p P) as (fs & C & R). exists fs. split; [|exact R].
    subst L. rewrite C. cbn [bind]. apply app_element. }
  rewrite E5. exists i1, i2, ss, cs, es. repeat split; assumption.
Qed.

Lemma render_schema O lim n t e i1 i2 ss cs es n1 n2 n3 n4 n5 :
  text t -> e = "qualified" \/ e = "unqualified" -> let L := lib_env lim in
  rendered O L n "Import" "import" i1 n1 -> rendered O L n "Include" "include" i2 n2 ->
  rendered O L n "SimpleType" "simpleType" ss n3 -> rendered O L n "XSDComplexType" "complexType" cs n4 ->
  rendered O L n "Element" "element" es n5 ->
  render_obj (S n) O L (xs "Schema") (Elem (clark ns_xsd "schema") [] []) (o_schema t e i1 i2 ss cs es) ns_x efd_q =
  Ok (xel "schema" [("targetNamespace", t); ("elementFormDefault", e)] (n1 ++ n2 ++ n3 ++ n4 ++ n5)).
Proof.
  intros Ht He L R1 R2 R3 R4 R5. subst L.
  assert (Te : text e) by (destruct He as [-> | ->]; reflexivity).
  eapply eq_trans; [eapply render_parts with (parts :=
     [([("targetNamespace", t)], []); ([("elementFormDefault", e)], []); ([], n1); ([], n2); ([], n3); ([], []); ([], []); ([], n4); ([], n5)]);
     [vm_compute; reflexivity|reflexivity|reflexivity| |]|].
  3:{ cbn [flat_map fst snd app]. now rewrite !app_nil_r. }
  - cbn [cd_fields]. parts_goal.
    1: (eapply adds_attr; try reflexivity; [discriminate|discriminate|exact Ht]).
    1: (eapply adds_attr; try reflexivity; [discriminate|discriminate|exact Te]).
    all: (eapply adds_list with (n' := ns_xsd); try reflexivity; try discriminate; [now left|exact no_brace_xsd|first [eapply rendered_render; eassumption|constructor]]).
  - cbn. repeat constructor; cbn; intuition discriminate.
Qed.

Lemma generate_ok O lim E G k s : schema_describable O E G s ->
  generate_xsd (8 + k) O (lib_env lim) E G s = Ok (mkDoc [("sns", gs_tns s); ("xsd", ns_xsd)] (describe_schema O E G s)).
Proof.
  intros H. destruct (schema_object O lim E G k s H) as (i1 & i2 & ss & cs & es & C & R1 & R2 & R3 & R4 & R5).
  unfold generate_xsd. rewrite C. cbn [bind]. change (mk_element (clark ns_xsd "schema")) with (Ok (Elem (clark ns_xsd "schema") [] [])).
  cbn [bind]. unfold obj_parts, o_schema. cbn [bind fst].
  pose proof (render_schema O lim (7 + k) (gs_tns s) (gs_efd s) i1 i2 ss cs es _ _ _ _ _ (proj1 H) (proj1 (proj2 H)) R1 R2 R3 R4 R5) as R.
  unfold o_schema in R. change (8 + k) with (S (7 + k)). unfold ns_x, efd_q in R. rewrite R. reflexivity.
Qed.
