(** The objects py2xsd builds and what they render to. *)
From Coq Require Import String Ascii List ZArith NArith Bool Lia.
From Verif Require Import PyBase PfBase PyRe Xml PyVal XsdSimple XsdComplex PyHttp Soap Client LibClasses Py2Xsd SpecXsd
  PfSimple PfRender PfRender2 PfRound PfLeaf PfLib.
Import ListNotations.
Open Scope string_scope.
Open Scope list_scope.

(** ** The objects *)
Definition o_facet (cls s : string) : pyval := VObj (xs cls) None [("value", VStr s)].
Definition o_opt (cls : string) (o : option string) : pyval := match o with Some s => o_facet cls s | None => VNone end.
Definition vs (o : option string) : pyval := match o with Some s => VStr s | None => VNone end.
Definition o_restr (base : string) (enums : list pyval) (pat mi me xe xi fr tot : option string) : pyval :=
  let v := o_opt "RestrictionValue" in
  VObj (xs "Restriction") None
    [("base", VStr base); ("enumerations", VList true enums); ("pattern", o_opt "Pattern" pat);
     ("minInclusive", v mi); ("minExclusive", v me); ("maxExclusive", v xe); ("maxInclusive", v xi);
     ("fractionDigits", v fr); ("totalDigits", v tot); ("length", VNone); ("minLength", VNone); ("maxLength", VNone);
     ("whiteSpace", VNone)].
Definition o_st (name : option string) (r : pyval) : pyval :=
  VObj (xs "SimpleType") None [("name", vs name); ("restriction", r); ("list", VNone)].
Definition o_elem (name : string) (ty : option string) (mn : option Z) (mx : pyval) (nil : pyval) (subst : option string)
    (st ct : pyval) : pyval :=
  VObj (xs "Element") None
    [("name", VStr name); ("type", vs ty); ("ref", VNone); ("minOccurs", tf_int mn); ("maxOccurs", mx); ("nillable", nil);
     ("substitutionGroup", vs subst); ("simpleType", st); ("complexType", ct)].
Definition o_seq (els : list pyval) : pyval := VObj (xs "Sequence") None [("elements", VList true els)].
Definition o_ct (name : option string) (s c a : pyval) : pyval :=
  VObj (xs "XSDComplexType") None
    [("name", vs name); ("sequence", s); ("choice", c); ("all", a); ("complexContent", VNone);
     ("attributes", VList true []); ("attributeGroups", VList true [])].
Definition o_import (loc : option string) (ns : string) : pyval :=
  VObj (xs "Import") None [("schemaLocation", vs loc); ("namespace", VStr ns)].
Definition o_include (loc : string) : pyval := VObj (xs "Include") None [("schemaLocation", VStr loc)].
Definition o_schema (tns efd : string) (imports includes simples complexes els : list pyval) : pyval :=
  VObj (xs "Schema") None
    [("targetNamespace", VStr tns); ("elementFormDefault", VStr efd); ("imports", VList true imports);
     ("includes", VList true includes); ("simpleTypes", VList true simples); ("groups", VList true []);
     ("attributeGroups", VList true []); ("complexTypes", VList true complexes); ("elements", VList true els)].

(** ** Restrictions *)
Lemma new_restr O lim base :
  (r <- construct O (lib_env lim) (xs "Restriction") [] ;; py_set O (lib_env lim) r "base" (VStr base)) =
  Ok (o_restr base [] None None None None None None None).
Proof. vm_compute. reflexivity. Qed.

Lemma add_enum O lim base es pat mi me xe xi fr tot s :
  add_enumeration O (lib_env lim) (o_restr base es pat mi me xe xi fr tot) (VStr s) =
  Ok (o_restr base (es ++ [o_facet "Enumeration" s]) pat mi me xe xi fr tot).
Proof. vm_compute. reflexivity. Qed.
Lemma add_enums O lim base pat mi me xe xi fr tot l : forall es,
  foldM (fun r v => add_enumeration O (lib_env lim) r v) (o_restr base es pat mi me xe xi fr tot) (map VStr l) =
  Ok (o_restr base (es ++ map (o_facet "Enumeration") l) pat mi me xe xi fr tot).
Proof.
  induction l as [|s l IH]; intros es; cbn [foldM map]; [now rewrite app_nil_r|].
  rewrite add_enum. cbn [bind]. rewrite IH, <- app_assoc. reflexivity.
Qed.

Definition when (b : bool) (s : string) : option string := if b then Some s else None.
Lemma add_pat O lim base es mi me xe xi fr tot b s :
  add_facet O (lib_env lim) "Pattern" "pattern" b (VStr s) (o_restr base es None mi me xe xi fr tot) =
  Ok (o_restr base es (when b s) mi me xe xi fr tot).
Proof. destruct b; vm_compute; reflexivity. Qed.
Lemma add_mi O lim base es pat me xe xi fr tot b s :
  add_facet O (lib_env lim) "RestrictionValue" "minInclusive" b (VStr s) (o_restr base es pat None me xe xi fr tot) =
  Ok (o_restr base es pat (when b s) me xe xi fr tot).
Proof. destruct b; vm_compute; reflexivity. Qed.
Lemma add_me O lim base es pat mi xe xi fr tot b s :
  add_facet O (lib_env lim) "RestrictionValue" "minExclusive" b (VStr s) (o_restr base es pat mi None xe xi fr tot) =
  Ok (o_restr base es pat mi (when b s) xe xi fr tot).
Proof. destruct b; vm_compute; reflexivity. Qed.
Lemma add_xe O lim base es pat mi me xi fr tot b s :
  add_facet O (lib_env lim) "RestrictionValue" "maxExclusive" b (VStr s) (o_restr base es pat mi me None xi fr tot) =
  Ok (o_restr base es pat mi me (when b s) xi fr tot).
Proof. destruct b; vm_compute; reflexivity. Qed.
Lemma add_xi O lim base es pat mi me xe fr tot b s :
  add_facet O (lib_env lim) "RestrictionValue" "maxInclusive" b (VStr s) (o_restr base es pat mi me xe None fr tot) =
  Ok (o_restr base es pat mi me xe (when b s) fr tot).
Proof. destruct b; vm_compute; reflexivity. Qed.
Lemma add_fr O lim base es pat mi me xe xi tot b s :
  add_facet O (lib_env lim) "RestrictionValue" "fractionDigits" b (VStr s) (o_restr base es pat mi me xe xi None tot) =
  Ok (o_restr base es pat mi me xe xi (when b s) tot).
Proof. destruct b; vm_compute; reflexivity. Qed.
Lemma add_tot O lim base es pat mi me xe xi fr b s :
  add_facet O (lib_env lim) "RestrictionValue" "totalDigits" b (VStr s) (o_restr base es pat mi me xe xi fr None) =
  Ok (o_restr base es pat mi me xe xi fr (when b s)).
Proof. destruct b; vm_compute; reflexivity. Qed.

(** *** Rendering *)
Definition ns_x : option string := Some ns_xsd.
Lemma no_brace_xsd : ~ In "}"%char (to_l ns_xsd).
Proof. vm_compute. intuition discriminate. Qed.
Definition efd_q : option string := Some qualified.

Lemma render_facet O lim n cls s t ns : In cls ["Enumeration"; "Pattern"; "RestrictionValue"] -> text s ->
  render_obj (S n) O (lib_env lim) (xs cls) (Elem t [] []) (o_facet cls s) ns efd_q = Ok (Elem t [("value", s)] []).
Proof.
  intros Hc Hs. repeat destruct Hc as [<- |Hc]; try destruct Hc;
    (eapply eq_trans; [eapply render_parts with (parts := [([("value", s)], [])]);
     [vm_compute; reflexivity|reflexivity|reflexivity| |repeat constructor; intros []]|reflexivity]);
    (constructor; [|constructor]); eexists; (split; [reflexivity|]);
    (eapply adds_attr; try reflexivity; [discriminate|discriminate|exact Hs]).
Qed.

Ltac parts_goal := repeat (apply Forall2_cons; [eexists; split; [reflexivity|]|]); [..|apply Forall2_nil].

Definition facet_nodes (name : string) (o : option string) : list node :=
  match o with Some s => [facet name s] | None => [] end.
Definition text_opt (o : option string) : Prop := forall s, o = Some s -> text s.

Lemma adds_facet O lim n cls f o : In cls ["Enumeration"; "Pattern"; "RestrictionValue"] ->
  f_kind f = KElement -> f_tag f = None -> ncname_ok (f_name f) = true -> f_type f = xs_t cls -> f_ns f = None -> text_opt o ->
  adds O (lib_env lim) (render_obj (S n) O (lib_env lim)) ns_x efd_q f (o_opt cls o) ([], facet_nodes (f_name f) o).
Proof.
  intros Hc K T N Ty Ns To. destruct o as [s|]; cbn [o_opt facet_nodes].
  - eapply adds_elem with (n' := ns_xsd); try eassumption; try discriminate; try reflexivity.
    + unfold eff_ns. rewrite Ns. reflexivity.
    + exact no_brace_xsd.
    + apply render_facet; auto.
  - now apply adds_elem_none.
Qed.

Definition restr_node (tag base : string) (enums : list string) (pat mi me xe xi fr tot : option string) : node :=
  Elem tag [("base", base)]
    (map (facet "enumeration") enums ++ facet_nodes "pattern" pat ++ facet_nodes "minInclusive" mi ++
     facet_nodes "minExclusive" me ++ facet_nodes "maxExclusive" xe ++ facet_nodes "maxInclusive" xi ++
     facet_nodes "fractionDigits" fr ++ facet_nodes "totalDigits" tot).

Lemma render_restr O lim n t base enums pat mi me xe xi fr tot ns :
  text base -> Forall text enums -> text_opt pat -> text_opt mi -> text_opt me -> text_opt xe -> text_opt xi -> text_opt fr -> text_opt tot ->
  render_obj (S (S n)) O (lib_env lim) (xs "Restriction") (Elem t [] [])
    (o_restr base (map (o_facet "Enumeration") enums) pat mi me xe xi fr tot) ns efd_q =
  Ok (restr_node t base enums pat mi me xe xi fr tot).
Proof.
  intros Hb He Hp H1 H2 H3 H4 H5 H6.
  eapply eq_trans; [eapply render_parts with (parts :=
    [([("base", base)], []); ([], map (facet "enumeration") enums); ([], facet_nodes "pattern" pat);
     ([], facet_nodes "minInclusive" mi); ([], facet_nodes "minExclusive" me); ([], facet_nodes "maxExclusive" xe);
     ([], facet_nodes "maxInclusive" xi); ([], facet_nodes "fractionDigits" fr); ([], facet_nodes "totalDigits" tot);
     ([], []); ([], []); ([], []); ([], [])]);
    [vm_compute; reflexivity|reflexivity|reflexivity| |repeat constructor; intros []]|].
  2:{ cbn [flat_map fst snd]. unfold restr_node. cbn [app]. rewrite ?app_nil_r. reflexivity. }
  - cbn [cd_fields]. parts_goal.
    + eapply adds_attr; try reflexivity; [discriminate|discriminate|exact Hb].
    + eapply adds_list with (n' := ns_xsd); try reflexivity; [now left|discriminate|exact no_brace_xsd|].
      clear -He. induction He; cbn [map]; constructor; auto. split; [discriminate|]. apply render_facet; [cbn; auto|assumption].
    + apply (adds_facet O lim n "Pattern" (fe "pattern" (xs_t "Pattern") 1 None)); auto; cbn; auto.
    + apply (adds_facet O lim n "RestrictionValue" (fe "minInclusive" (xs_t "RestrictionValue") 1 None)); auto; cbn; auto.
    + apply (adds_facet O lim n "RestrictionValue" (fe "minExclusive" (xs_t "RestrictionValue") 1 None)); auto; cbn; auto.
    + apply (adds_facet O lim n "RestrictionValue" (fe "maxExclusive" (xs_t "RestrictionValue") 1 None)); auto; cbn; auto.
    + apply (adds_facet O lim n "RestrictionValue" (fe "maxInclusive" (xs_t "RestrictionValue") 1 None)); auto; cbn; auto.
    + apply (adds_facet O lim n "RestrictionValue" (fe "fractionDigits" (xs_t "RestrictionValue") 1 None)); auto; cbn; auto.
    + apply (adds_facet O lim n "RestrictionValue" (fe "totalDigits" (xs_t "RestrictionValue") 1 None)); auto; cbn; auto.
    + now apply adds_elem_none.
    + now apply adds_elem_none.
    + now apply adds_elem_none.
    + now apply adds_elem_none.
Qed.

(** ** Type references *)
Lemma uncapitalize_name c : c <> "" -> uncapitalize c = Ok (type_name c).
Proof. unfold uncapitalize, type_name. destruct (String.eqb c "QName"); [reflexivity|]. destruct c; [congruence|reflexivity]. Qed.
Lemma text_type_name c : text c -> text (type_name c).
Proof.
  unfold text, type_name, xml_text_ok. destruct (String.eqb c "QName"); [auto|]. destruct c as [|a t]; [auto|].
  cbn. rewrite !andb_true_iff. intros [H1 H2]. split; [|assumption]. clear H2.
  destruct a as [b0 b1 b2 b3 b4 b5 b6 b7]. destruct b0, b1, b2, b3, b4, b5, b6, b7; revert H1; vm_compute; auto.
Qed.
Lemma text_app a b : text a -> text b -> text (a ++ b)%string.
Proof. unfold text, xml_text_ok. intros Ha Hb. now rewrite to_l_app, forallb_app, Ha, Hb. Qed.

Lemma get_type_ok t : type_describable t -> get_xsd_type t = Ok (type_ref t) /\ text (type_ref t).
Proof.
  intros H. destruct t as [s|c].
  - destruct H as [Hn Ht]. unfold get_xsd_type. rewrite uncapitalize_name by assumption. cbn [bind].
    destruct s as [c f|f| | | | |c f|c f| |]; cbn [st_class] in *; try (split; reflexivity).
    + unfold type_ref, builtin, unlisted, st_direct, st_listed. cbn [st_class].
      unfold lib_strings, string_types, str_in, assoc. cbn [existsb].
      repeat match goal with |- context [String.eqb c ?k] => destruct (String.eqb_spec c k) as [-> |?]; [split; reflexivity|] end.
      cbn [orb andb]. split; [reflexivity|]. apply text_app; [reflexivity|now apply text_type_name].
    + unfold type_ref, builtin, unlisted, st_direct, st_listed. cbn [st_class].
      unfold lib_decimals, str_in, assoc. cbn [existsb].
      repeat match goal with |- context [String.eqb c ?k] => destruct (String.eqb_spec c k) as [-> |?]; [split; reflexivity|] end.
      cbn [orb andb]. split; [reflexivity|]. apply text_app; [reflexivity|now apply text_type_name].
    + destruct c; split; reflexivity.
  - destruct H as [Hn Ht]. unfold get_xsd_type. rewrite uncapitalize_name by assumption. cbn [bind type_ref]. split; [reflexivity|].
    apply text_app; [reflexivity|now apply text_type_name].
Qed.

(** ** The restriction of an element *)
Definition val_opt (O : oracle) (v : option pyval) : option string :=
  match v with Some x => when (py_truthy x) (py_str O x) | None => None end.
Definition int_opt (v : option Z) : option string :=
  match v with Some z => when (negb (z =? 0)%Z) (dec_Z z) | None => None end.
Definition pat_opt (G : decls) (p : option re) : option string :=
  match p with Some p => when (negb (String.eqb (dc_re G p) "")) (dc_re G p) | None => None end.

Lemma truthy_int z : py_truthy (VInt z) = negb (z =? 0)%Z.
Proof.
  cbn. unfold QArith_base.Qeq_bool. cbn. rewrite Z.mul_1_r. now destruct z.
Qed.

Lemma texts_strings l : texts l -> l = map VStr (strings l) /\ Forall text (strings l).
Proof.
  intros H. induction H as [|v l (s & -> & T) _ (IH1 & IH2)]; cbn; [split; constructor|].
  split; [f_equal; exact IH1|now constructor].
Qed.

Definition restr_of (O : oracle) (G : decls) (t : ftype) : pyval :=
  let d := tf_decimal t in
  o_restr (type_ref t) (map (o_facet "Enumeration") (if st_is_direct t then strings (tf_enum t) else []))
    (pat_opt G (tf_pattern t)) (val_opt O (df_minIn d)) (val_opt O (df_minEx d)) (val_opt O (df_maxEx d)) (val_opt O (df_maxIn d))
    (int_opt (df_fraction d)) (int_opt (df_total d)).

Lemma restriction_ok O lim G t : type_describable t -> facets_describable O G t ->
  element_restriction O (lib_env lim) G t = Ok (restr_of O G t).
Proof.
  intros Ht (He & _). unfold element_restriction, restr_of. destruct (get_type_ok t Ht) as [-> _].
  pose proof (new_restr O lim (type_ref t)) as N. unfold bind in N at 1.
  destruct (construct O (lib_env lim) (xs "Restriction") []) as [r|]; [|discriminate]. cbn [bind]. rewrite N. clear N r. cbn [bind].
  assert (X : (if st_is_direct t then foldM (fun r v => add_enumeration O (lib_env lim) r v) (o_restr (type_ref t) [] None None None None None None None) (tf_enum t)
               else Ok (o_restr (type_ref t) [] None None None None None None None)) =
              Ok (o_restr (type_ref t) (map (o_facet "Enumeration") (if st_is_direct t then strings (tf_enum t) else [])) None None None None None None None)).
  { destruct (st_is_direct t); [|reflexivity]. destruct (texts_strings _ (He eq_refl)) as [E _]. rewrite E at 1. rewrite add_enums. reflexivity. }
  rewrite X. clear X. cbn [bind].
  set (es := map (o_facet "Enumeration") _). set (d := tf_decimal t). set (b := type_ref t).
  assert (V : forall name v r b s r', add_facet O (lib_env lim) "RestrictionValue" name b (VStr s) r = Ok r' ->
    v = None /\ r' = r \/ (exists x, v = Some x /\ py_truthy x = b /\ py_str O x = s) -> add_value O (lib_env lim) name (tf_value v) r = Ok r').
  { intros name v r b0 s r' A [[-> ->] | (x & -> & <- & <-)]; [reflexivity|exact A]. }
  assert (VI : forall name v r b s r', add_facet O (lib_env lim) "RestrictionValue" name b (VStr s) r = Ok r' ->
    v = None /\ r' = r \/ (exists x, v = Some x /\ negb (x =? 0)%Z = b /\ dec_Z x = s) -> add_value O (lib_env lim) name (tf_int v) r = Ok r').
  { intros name v r b0 s r' A [[-> ->] | (x & -> & <- & <-)]; [reflexivity|]. unfold add_value, tf_int. rewrite truthy_int. exact A. }
  assert (S1 : add_value O (lib_env lim) "fractionDigits" (tf_int (df_fraction d)) (o_restr b es None None None None None None None) =
               Ok (o_restr b es None None None None None (int_opt (df_fraction d)) None)).
  { destruct (df_fraction d) as [z|] eqn:Ez; [|reflexivity]. eapply VI; [|right; eauto]. apply add_fr. }
  rewrite S1. clear S1. cbn [bind].
  assert (S2 : match tf_pattern t with
        | Some p => add_facet O (lib_env lim) "Pattern" "pattern" (negb (String.eqb (dc_re G p) "")) (VStr (dc_re G p)) (o_restr b es None None None None None (int_opt (df_fraction d)) None)
        | None => Ok (o_restr b es None None None None None (int_opt (df_fraction d)) None)
        end = Ok (o_restr b es (pat_opt G (tf_pattern t)) None None None None (int_opt (df_fraction d)) None)).
  { destruct (tf_pattern t); [|reflexivity]. apply add_pat. }
  rewrite S2. clear S2. cbn [bind].
  set (p := pat_opt G (tf_pattern t)). set (fr := int_opt (df_fraction d)).
  assert (S3 : add_value O (lib_env lim) "minInclusive" (tf_value (df_minIn d)) (o_restr b es p None None None None fr None) =
               Ok (o_restr b es p (val_opt O (df_minIn d)) None None None fr None)).
  { destruct (df_minIn d) as [z|] eqn:Ez; [|reflexivity]. eapply V; [|right; eauto]. apply add_mi. }
  rewrite S3. clear S3. cbn [bind]. set (mi := val_opt O (df_minIn d)).
  assert (S3 : add_value O (lib_env lim) "minExclusive" (tf_value (df_minEx d)) (o_restr b es p mi None None None fr None) =
               Ok (o_restr b es p mi (val_opt O (df_minEx d)) None None fr None)).
  { destruct (df_minEx d) as [z|] eqn:Ez; [|reflexivity]. eapply V; [|right; eauto]. apply add_me. }
  rewrite S3. clear S3. cbn [bind]. set (me := val_opt O (df_minEx d)).
  assert (S3 : add_value O (lib_env lim) "maxExclusive" (tf_value (df_maxEx d)) (o_restr b es p mi me None None fr None) =
               Ok (o_restr b es p mi me (val_opt O (df_maxEx d)) None fr None)).
  { destruct (df_maxEx d) as [z|] eqn:Ez; [|reflexivity]. eapply V; [|right; eauto]. apply add_xe. }
  rewrite S3. clear S3. cbn [bind]. set (xe := val_opt O (df_maxEx d)).
  assert (S3 : add_value O (lib_env lim) "maxInclusive" (tf_value (df_maxIn d)) (o_restr b es p mi me xe None fr None) =
               Ok (o_restr b es p mi me xe (val_opt O (df_maxIn d)) fr None)).
  { destruct (df_maxIn d) as [z|] eqn:Ez; [|reflexivity]. eapply V; [|right; eauto]. apply add_xi. }
  rewrite S3. clear S3. cbn [bind]. set (xi := val_opt O (df_maxIn d)).
  destruct (df_total d) as [z|] eqn:Ez; [|reflexivity]. eapply VI; [|right; eauto]. apply add_tot.
Qed.

Definition facet_list (o : option string) (name : string) := facet_nodes name o.
Lemma describe_restr O G t tag : 
  Elem tag [("base", type_ref t)] (describe_facets O G t) =
  (let d := tf_decimal t in
   restr_node tag (type_ref t) (if st_is_direct t then strings (tf_enum t) else [])
    (pat_opt G (tf_pattern t)) (val_opt O (df_minIn d)) (val_opt O (df_minEx d)) (val_opt O (df_maxEx d)) (val_opt O (df_maxIn d))
    (int_opt (df_fraction d)) (int_opt (df_total d))).
Proof.
  unfold restr_node, describe_facets. cbv zeta. f_equal. f_equal; [now destruct (st_is_direct t)|].
  assert (V : forall name v, value_facet O name v = facet_nodes name (val_opt O v)) by
    (intros name [x|]; [unfold value_facet, val_opt; now destruct (py_truthy x)|reflexivity]).
  assert (VI : forall name v, int_facet name v = facet_nodes name (int_opt v)) by
    (intros name [x|]; [unfold int_facet, int_opt; now destruct (x =? 0)%Z|reflexivity]).
  rewrite !V, !VI. f_equal. destruct (tf_pattern t) as [p|]; [|reflexivity]. cbn. now destruct (String.eqb (dc_re G p) "").
Qed.

Lemma text_val O v : value_text O v -> text_opt (val_opt O v).
Proof. intros H s E. destruct v as [x|]; [|discriminate]. cbn in E. destruct (py_truthy x); [|discriminate]. injection E as <-. now apply H. Qed.
Lemma text_int v : text_opt (int_opt v).
Proof. intros s E. destruct v as [x|]; [|discriminate]. cbn in E. destruct (x =? 0)%Z; [discriminate|]. injection E as <-. apply dec_Z_ok. Qed.

Lemma render_restriction O lim n G t tag ns : type_describable t -> facets_describable O G t ->
  render_obj (S (S n)) O (lib_env lim) (xs "Restriction") (Elem tag [] []) (restr_of O G t) ns efd_q =
  Ok (Elem tag [("base", type_ref t)] (describe_facets O G t)).
Proof.
  intros Ht (He & Hp & H1 & H2 & H3 & H4). rewrite describe_restr. unfold restr_of. cbv zeta. apply render_restr;
    try (now apply text_val); try apply text_int.
  - now apply get_type_ok.
  - destruct (st_is_direct t); [|constructor]. now apply texts_strings, He.
  - intros s E. destruct (tf_pattern t) as [p|]; [|discriminate]. cbn in E. destruct (negb _); [|discriminate]. injection E as <-. now apply Hp.
Qed.

(** ** Elements *)
Definition o_el (name ty mn mx nil subst st ct : pyval) : pyval :=
  VObj (xs "Element") None
    [("name", name); ("type", ty); ("ref", VNone); ("minOccurs", mn); ("maxOccurs", mx); ("nillable", nil);
     ("substitutionGroup", subst); ("simpleType", st); ("complexType", ct)].
Lemma new_el O lim : construct O (lib_env lim) (xs "Element") [] = Ok (o_el VNone VNone VNone VNone VNone VNone VNone VNone).
Proof. vm_compute. reflexivity. Qed.

Lemma int_attr O z : st_accept O (SInteger CInteger no_dfacets) (VInt z) = Ok (VInt z).
Proof. rewrite integer_accept_int. reflexivity. Qed.
Lemma maxoccurs_val m : maxoccurs_accept (occurs_val m) = Ok (occurs_val m).
Proof.
  destruct m as [|z|]; try reflexivity. cbn. unfold py_int. cbn. now rewrite Z.quot_1_r.
Qed.

Lemma el_set_name O lim ty mn mx nil subst st ct s : py_set O (lib_env lim) (o_el VNone ty mn mx nil subst st ct) "name" (VStr s) =
  Ok (o_el (VStr s) ty mn mx nil subst st ct).
Proof. vm_compute. reflexivity. Qed.
Lemma el_set_type O lim name mn mx nil subst st ct s : py_set O (lib_env lim) (o_el name VNone mn mx nil subst st ct) "type" (VStr s) =
  Ok (o_el name (VStr s) mn mx nil subst st ct).
Proof. vm_compute. reflexivity. Qed.
Lemma el_set_nil O lim name ty mn mx subst st ct b : py_set O (lib_env lim) (o_el name ty mn mx VNone subst st ct) "nillable" (VBool b) =
  Ok (o_el name ty mn mx (VBool b) subst st ct).
Proof. destruct b; vm_compute; reflexivity. Qed.
Lemma el_set_subst O lim name ty mn mx nil st ct s : py_set O (lib_env lim) (o_el name ty mn mx nil VNone st ct) "substitutionGroup" (VStr s) =
  Ok (o_el name ty mn mx nil (VStr s) st ct).
Proof. vm_compute. reflexivity. Qed.
Lemma el_set_min O lim name ty mx nil subst st ct m : py_set O (lib_env lim) (o_el name ty VNone mx nil subst st ct) "minOccurs" (tf_int m) =
  Ok (o_el name ty (tf_int m) mx nil subst st ct).
Proof.
  eapply eq_trans; [eapply py_set_ok; [vm_compute; reflexivity|vm_compute; reflexivity|]|reflexivity].
  destruct m as [z|]; [|reflexivity]. exact (int_attr O z).
Qed.
Lemma el_set_max O lim name ty mn nil subst st ct m : py_set O (lib_env lim) (o_el name ty mn VNone nil subst st ct) "maxOccurs" (occurs_val m) =
  Ok (o_el name ty mn (occurs_val m) nil subst st ct).
Proof.
  eapply eq_trans; [eapply py_set_ok; [vm_compute; reflexivity|vm_compute; reflexivity|]|reflexivity].
  pose proof (maxoccurs_val m) as X. destruct m; exact X.
Qed.
Lemma el_set_st O lim name ty mn mx nil subst ct fs : py_set O (lib_env lim) (o_el name ty mn mx nil subst VNone ct) "simpleType" (VObj (xs "SimpleType") None fs) =
  Ok (o_el name ty mn mx nil subst (VObj (xs "SimpleType") None fs) ct).
Proof. vm_compute. reflexivity. Qed.
Lemma el_set_ct O lim name ty mn mx nil subst st fs : py_set O (lib_env lim) (o_el name ty mn mx nil subst st VNone) "complexType" (VObj (xs "XSDComplexType") None fs) =
  Ok (o_el name ty mn mx nil subst st (VObj (xs "XSDComplexType") None fs)).
Proof. vm_compute. reflexivity. Qed.
Lemma st_new O lim fs : (st <- construct O (lib_env lim) (xs "SimpleType") [] ;; py_set O (lib_env lim) st "restriction" (VObj (xs "Restriction") None fs)) =
  Ok (o_st None (VObj (xs "Restriction") None fs)).
Proof. vm_compute. reflexivity. Qed.

Definition elem_of (O : oracle) (G : decls) (c : string) (f : field) : pyval :=
  o_el (VStr (tag_or_name f)) (vs (when (dc_class G c f) (type_ref (f_type f)))) (tf_int (f_min f))
    (match f_kind f with KList => occurs_val (f_max f) | _ => VNone end) (VBool (f_nillable f)) VNone
    (if dc_class G c f then VNone else o_st None (restr_of O G (f_type f))) VNone.

Lemma create_ok O lim G c f : field_describable O G c f ->
  create_xsd_element O (lib_env lim) G c f = Ok (elem_of O G c f).
Proof.
  intros (Hn & Ht & Hf). unfold create_xsd_element, elem_of. rewrite new_el. cbn [bind]. rewrite el_set_name. cbn [bind].
  rewrite el_set_nil. cbn [bind]. rewrite el_set_min. cbn [bind].
  set (mx := match f_kind f with KList => occurs_val (f_max f) | _ => VNone end).
  match goal with |- (e <- ?M ;; _) = _ => assert (X : M = Ok (o_el (VStr (tag_or_name f)) VNone (tf_int (f_min f)) mx (VBool (f_nillable f)) VNone VNone VNone)) end.
  { subst mx. destruct (f_kind f); try reflexivity. apply el_set_max. }
  rewrite X. clear X. cbn [bind]. destruct (dc_class G c f).
  - destruct (get_type_ok _ Ht) as [-> _]. cbn [bind]. apply el_set_type.
  - rewrite restriction_ok by auto. cbn [bind]. unfold restr_of, o_restr. cbv zeta.
    set (fs := [("base", _); _; _; _; _; _; _; _; _; _; _; _; _]). clearbody fs.
    pose proof (st_new O lim fs) as N. unfold bind in N at 1. destruct (construct O (lib_env lim) (xs "SimpleType") []); [|discriminate].
    cbn [bind]. rewrite N. cbn [bind]. apply el_set_st.
Qed.

(** Rendering an element whose content is rendered. *)
Definition opt_attr (name : string) (o : option string) : list (string * string) :=
  match o with Some s => [(name, s)] | None => [] end.
Lemma render_el O lim n tag ns name ty mn mx nil subst st ct stn ctn :
  text name -> text_opt ty -> text_opt subst ->
  (st = VNone /\ stn = [] \/ exists fs x, st = VObj (xs "SimpleType") None fs /\ stn = [x] /\
     render_obj n O (lib_env lim) (xs "SimpleType") (Elem (clark ns_xsd "simpleType") [] []) st ns_x efd_q = Ok x) ->
  (ct = VNone /\ ctn = [] \/ exists fs x, ct = VObj (xs "XSDComplexType") None fs /\ ctn = [x] /\
     render_obj n O (lib_env lim) (xs "XSDComplexType") (Elem (clark ns_xsd "complexType") [] []) ct ns_x efd_q = Ok x) ->
  render_obj (S n) O (lib_env lim) (xs "Element") (Elem tag [] [])
    (o_el (VStr name) (vs ty) (tf_int mn) (occurs_val mx) (match nil with Some b => VBool b | None => VNone end) (vs subst) st ct) ns efd_q =
  Ok (Elem tag ([("name", name)] ++ opt_attr "type" ty ++ min_attr mn ++ occurs_attr mx ++
                opt_attr "nillable" (option_map yes_no nil) ++ opt_attr "substitutionGroup" subst) (stn ++ ctn)).
Proof.
  intros Hn Hty Hsub Hst Hct.
  eapply eq_trans; [eapply render_parts with (parts :=
    [([("name", name)], []); (opt_attr "type" ty, []); ([], []); (min_attr mn, []); (occurs_attr mx, []);
     (opt_attr "nillable" (option_map yes_no nil), []); (opt_attr "substitutionGroup" subst, []); ([], stn); ([], ctn)]);
    [vm_compute; reflexivity|reflexivity|reflexivity| |]|].
  3:{ cbn [flat_map fst snd app]. now rewrite !app_nil_r. }
  - cbn [cd_fields]. parts_goal.
    + eapply adds_attr; try reflexivity; [discriminate|discriminate|exact Hn].
    + destruct ty as [s|]; [|now apply adds_attr_none]. eapply adds_attr; try reflexivity; [discriminate|discriminate|now apply Hty].
    + now apply adds_attr_none.
    + destruct mn as [z|]; [|now apply adds_attr_none]. eapply adds_attr; try reflexivity; [discriminate|discriminate|apply dec_Z_ok].
    + destruct mx as [|z|]; [now apply adds_attr_none|..].
      * eapply adds_attr; try reflexivity; [discriminate|discriminate|apply dec_Z_ok].
      * eapply adds_attr; try reflexivity; discriminate.
    + destruct nil as [[|]|]; [| |now apply adds_attr_none]; (eapply adds_attr; try reflexivity; discriminate).
    + destruct subst as [s|]; [|now apply adds_attr_none]. eapply adds_attr; try reflexivity; [discriminate|discriminate|now apply Hsub].
    + destruct Hst as [[-> ->] | (fs & x & -> & -> & R)]; [now apply adds_elem_none|].
      eapply adds_elem with (n' := ns_xsd); try reflexivity; try discriminate; [exact no_brace_xsd|exact R].
    + destruct Hct as [[-> ->] | (fs & x & -> & -> & R)]; [now apply adds_elem_none|].
      eapply adds_elem with (n' := ns_xsd); try reflexivity; try discriminate; [exact no_brace_xsd|exact R].
  - cbn [flat_map fst app]. clear. destruct ty, mn, mx, nil, subst; cbn; repeat constructor; cbn; intuition discriminate.
Qed.

Lemma render_st O lim n tag ns name fs x : text_opt name ->
  render_obj n O (lib_env lim) (xs "Restriction") (Elem (clark ns_xsd "restriction") [] []) (VObj (xs "Restriction") None fs) ns_x efd_q = Ok x ->
  render_obj (S n) O (lib_env lim) (xs "SimpleType") (Elem tag [] []) (o_st name (VObj (xs "Restriction") None fs)) ns efd_q =
  Ok (Elem tag (opt_attr "name" name) [x]).
Proof.
  intros Hn R. eapply eq_trans; [eapply render_parts with (parts := [(opt_attr "name" name, []); ([], [x]); ([], [])]);
    [vm_compute; reflexivity|reflexivity|reflexivity| |]|].
  3:{ cbn [flat_map fst snd app]. now rewrite !app_nil_r. }
  - cbn [cd_fields]. parts_goal.
    + destruct name as [s|]; [|now apply adds_attr_none]. eapply adds_attr; try reflexivity; [discriminate|discriminate|now apply Hn].
    + eapply adds_elem with (n' := ns_xsd); try reflexivity; try discriminate; [exact no_brace_xsd|exact R].
    + now apply adds_elem_none.
  - destruct name; cbn; repeat constructor; intros [].
Qed.

Lemma render_elem_of O lim n G c f ns : field_describable O G c f ->
  render_obj (S (S (S (S n)))) O (lib_env lim) (xs "Element") (Elem (clark ns_xsd "element") [] []) (elem_of O G c f) ns efd_q =
  Ok (describe_element O G c f).
Proof.
  intros (Hn & Ht & Hf). unfold elem_of, describe_element, xel.
  assert (K : (match f_kind f with KList => occurs_val (f_max f) | _ => VNone end) = occurs_val (match f_kind f with KList => f_max f | _ => ONone end))
    by (destruct (f_kind f); reflexivity).
  rewrite K. eapply eq_trans; [apply (render_el O lim _ _ _ _ (when (dc_class G c f) (type_ref (f_type f))) (f_min f)
     (match f_kind f with KList => f_max f | _ => ONone end) (Some (f_nillable f)) None) with (ctn := [])
     (stn := if dc_class G c f then [] else [xel "simpleType" [] [xel "restriction" [("base", type_ref (f_type f))] (describe_facets O G (f_type f))]])|].
  - exact Hn.
  - intros s E. destruct (dc_class G c f); [|discriminate]. injection E as <-. now apply get_type_ok.
  - intros s [=].
  - destruct (dc_class G c f); [now left|right]. eexists _, _. split; [reflexivity|]. split; [reflexivity|].
    unfold restr_of. cbv zeta. apply render_st; [intros s [=]|]. fold (restr_of O G (f_type f)). now apply render_restriction; auto.
  - now left.
  - destruct (dc_class G c f), (f_kind f); cbn; rewrite ?app_nil_r; reflexivity.
Qed.
