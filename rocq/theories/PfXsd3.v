(** py2xsd: what the generated document says about facets and types. *)
From Coq Require Import String Ascii List ZArith NArith Bool Lia.
From Verif Require Import PyBase PfBase PyRe Xml PyVal XsdSimple XsdComplex PyHttp Soap Client LibClasses Py2Xsd SpecXsd SpecFacets
  PfSimple PfRender PfRender2 PfRound PfLeaf PfLib PfXsd PfXsd2.
Import ListNotations.
Open Scope string_scope.
Open Scope list_scope.

(** ** Reading the document *)
Lemma app_inj_l (a b c : string) : (a ++ b)%string = (a ++ c)%string -> b = c.
Proof. induction a as [|x a IH]; cbn; [auto|]. intros [=]. auto. Qed.
Lemma tag_xel t t' a k : xsd_tag t (xel t' a k) = String.eqb t' t.
Proof.
  unfold xsd_tag, xel. destruct (String.eqb_spec t' t) as [-> |N]; [apply String.eqb_refl|].
  apply String.eqb_neq. intros E. apply N. unfold clark in E. injection E as E. exact E.
Qed.
Lemma in_tagged t a k x : In (xel t a k) (subnodes x) -> In (xel t a k) (kids_tagged t x).
Proof. intros H. apply filter_In. split; [assumption|]. rewrite tag_xel. apply String.eqb_refl. Qed.

Lemma class_declares O E G s c d f : In c (gs_complex s) -> e_cls E c = Some d -> In f (cd_fields d) -> is_plain f = true ->
  declares (describe_schema O E G s) (type_name c) (tag_or_name f) (describe_element O G c f).
Proof.
  intros Hc Hd Hf Hp. exists (describe_class O G true c (class_of E c)). eexists. repeat split.
  - apply in_tagged. cbn [subnodes describe_schema xel]. rewrite !in_app_iff. right. right. right. left.
    apply (in_map (fun c => describe_class O G true c (class_of E c)) _ _ Hc).
  - left. reflexivity.
  - apply in_tagged. cbn [subnodes xel]. apply (in_map (describe_element O G c)), filter_In.
    unfold class_of. rewrite Hd. now split.
Qed.

Lemma filter_map_all {A B} (p : B -> bool) (f : A -> B) l : (forall x, p (f x) = true) -> filter p (map f l) = map f l.
Proof. intros H. induction l as [|x l IH]; cbn; [reflexivity|]. now rewrite H, IH. Qed.
Lemma filter_map_no {A B} (p : B -> bool) (f : A -> B) l : (forall x, p (f x) = false) -> filter p (map f l) = [].
Proof. intros H. induction l as [|x l IH]; cbn; [reflexivity|]. now rewrite H, IH. Qed.

Lemma flat_map_map {A B C} (f : A -> B) (g : B -> list C) l : flat_map g (map f l) = flat_map (fun x => g (f x)) l.
Proof. induction l; cbn; congruence. Qed.
Lemma flat_map_single {A B} (f : A -> B) l : flat_map (fun x => [f x]) l = map f l.
Proof. induction l; cbn; congruence. Qed.

Lemma schema_defines O E G s : defines (describe_schema O E G s) = map (fun sc => type_name (sc_name sc)) (gs_simple s) ++ map type_name (gs_complex s).
Proof.
  unfold defines, kids_tagged. cbn [subnodes describe_schema xel].
  assert (T : forall t t' a k, xsd_tag t (Elem (clark ns_xsd t') a k) = String.eqb t' t) by (intros; apply tag_xel).
  rewrite !filter_app.
  rewrite !(filter_map_no _ (fun i => xel "import" _ _)) by (intros; apply tag_xel).
  rewrite !(filter_map_no _ (fun i => xel "include" _ _)) by (intros; apply tag_xel).
  rewrite (filter_map_all (xsd_tag "simpleType") describe_simple) by (intros; apply T).
  rewrite (filter_map_no (xsd_tag "complexType") describe_simple) by (intros; apply T).
  rewrite (filter_map_no (xsd_tag "simpleType") (fun c => describe_class _ _ _ _ _)) by (intros; apply T).
  rewrite (filter_map_all (xsd_tag "complexType") (fun c => describe_class _ _ _ _ _)) by (intros; apply T).
  rewrite !(filter_map_no _ (describe_toplevel O E G)) by (intros; apply T).
  rewrite !app_nil_r. cbn [app]. rewrite flat_map_app, !flat_map_map.
  f_equal; apply flat_map_single.
Qed.

(** ** Facets *)
Lemma facets_elem O G c f : dc_class G c f = false ->
  facets_of (describe_element O G c f) =
  flat_map (fun y => match y, attr_of "value" y with Elem t _ _, Some v => [(local_name t, v)] | _, _ => [] end) (describe_facets O G (f_type f)).
Proof.
  intros H. unfold facets_of, describe_element. rewrite H. unfold kids_tagged. cbn [subnodes xel filter]. 
  assert (T : forall t t' a k, xsd_tag t (Elem (clark ns_xsd t') a k) = String.eqb t' t) by (intros; apply tag_xel).
  rewrite tag_xel. cbn [String.eqb Ascii.eqb Bool.eqb flat_map subnodes filter xel].
  rewrite tag_xel. cbn [String.eqb Ascii.eqb Bool.eqb flat_map subnodes filter xel]. now rewrite !app_nil_r.
Qed.

Definition show (O : oracle) (p : string * pyval) : string * string := (fst p, py_str O (snd p)).
Definition read_facet (y : node) : list (string * string) :=
  match y, attr_of "value" y with Elem t _ _, Some v => [(local_name t, v)] | _, _ => [] end.
Lemma read_one n v : In n ["enumeration"; "pattern"; "minInclusive"; "minExclusive"; "maxExclusive"; "maxInclusive"; "fractionDigits"; "totalDigits"] ->
  read_facet (facet n v) = [(n, v)].
Proof. intros H. repeat destruct H as [<- |H]; try reflexivity. destruct H. Qed.

Lemma py_str_str O s : py_str O (VStr s) = s.
Proof. reflexivity. Qed.

Lemma read_value O t n v : In n ["pattern"; "minInclusive"; "minExclusive"; "maxExclusive"; "maxInclusive"; "fractionDigits"; "totalDigits"] ->
  flat_map read_facet (value_facet O n v) = map (show O) (filter (carried t) (opt_facet n id v)).
Proof.
  intros H. assert (Hn : carried t (n, VNone) = false /\ forall x, carried t (n, x) = py_truthy x).
  { repeat destruct H as [<- |H]; try (split; [reflexivity|intros x; reflexivity]). destruct H. }
  destruct Hn as [_ Hn]. destruct v as [x|]; [|reflexivity]. cbn [value_facet opt_facet filter]. unfold id. rewrite Hn.
  destruct (py_truthy x); [|reflexivity]. cbn [flat_map]. rewrite read_one by (cbn in *; tauto). reflexivity.
Qed.
Lemma read_int O t n v : In n ["fractionDigits"; "totalDigits"] ->
  flat_map read_facet (int_facet n v) = map (show O) (filter (carried t) (opt_facet n VInt v)).
Proof.
  intros H. assert (Hn : forall x, carried t (n, x) = py_truthy x).
  { repeat destruct H as [<- |H]; try (intros x; reflexivity). destruct H. }
  destruct v as [x|]; [|reflexivity]. cbn [int_facet opt_facet filter]. rewrite Hn, truthy_int.
  destruct (x =? 0)%Z; [reflexivity|]. cbn [negb flat_map map]. rewrite read_one by (cbn in *; tauto). reflexivity.
Qed.

Lemma facets_read O G t : (st_is_direct t = true -> texts (tf_enum t)) ->
  flat_map read_facet (describe_facets O G t) = map (show O) (filter (carried t) (declared G t)).
Proof.
  intros He. unfold describe_facets. cbv zeta. rewrite !flat_map_app.
  rewrite !(read_value O t) by (cbn; tauto). rewrite !(read_int O t) by (cbn; tauto).
  assert (Hp : flat_map read_facet (match tf_pattern t with Some p => if String.eqb (dc_re G p) "" then [] else [facet "pattern" (dc_re G p)] | None => [] end)
    = map (show O) (filter (carried t) (opt_facet "pattern" (fun p => VStr (dc_re G p)) (tf_pattern t)))).
  { destruct (tf_pattern t) as [p|]; [|reflexivity]. cbn [opt_facet filter].
    change (carried t ("pattern", VStr (dc_re G p))) with (py_truthy (VStr (dc_re G p))). cbn [py_truthy].
    destruct (String.eqb (dc_re G p) ""); reflexivity. }
  rewrite Hp. clear Hp.
  assert (Hen : flat_map read_facet (if st_is_direct t then map (facet "enumeration") (strings (tf_enum t)) else [])
    = map (show O) (filter (carried t) (map (fun v => ("enumeration", v)) (tf_enum t)))).
  { assert (Hc : forall v, carried t ("enumeration", v) = carries_enumeration t) by reflexivity.
    assert (Hd : tf_enum t <> [] -> st_is_direct t = carries_enumeration t).
    { destruct t as [[]|]; cbn; congruence. }
    destruct (tf_enum t) as [|v0 l0] eqn:El; [destruct (st_is_direct t); reflexivity|]. rewrite Hd in * by discriminate.
    destruct (carries_enumeration t) eqn:Ec.
    - rewrite filter_map_all by exact Hc. specialize (He eq_refl). clear - He.
      induction He as [|v l (s & -> & _) _ IH]; [reflexivity|]. cbn [strings flat_map map app] in *.
      rewrite read_one by (cbn; tauto). cbn [app]. f_equal. exact IH.
    - rewrite filter_map_no by exact Hc. reflexivity. }
  rewrite Hen. clear Hen. rewrite <- !map_app, <- !filter_app. f_equal.
  destruct t as [st|]; [|reflexivity]. destruct st as [cls f|f| | | | |cls f|ci u| |]; try reflexivity.
  - cbn. unfold str_facets. cbn. rewrite !app_nil_r, !filter_app.
    assert (Q : filter (carried (TSimple (SString cls f))) (opt_facet "length" VInt (sf_length f)) = [] /\
      filter (carried (TSimple (SString cls f))) (opt_facet "minLength" VInt (sf_minLength f)) = [] /\
      filter (carried (TSimple (SString cls f))) (opt_facet "maxLength" VInt (sf_maxLength f)) = [] /\
      filter (carried (TSimple (SString cls f))) (opt_facet "whiteSpace" VStr (sf_ws f)) = []).
    { repeat split; [destruct (sf_length f)|destruct (sf_minLength f)|destruct (sf_maxLength f)|destruct (sf_ws f)]; reflexivity. }
    destruct Q as (-> & -> & -> & ->). rewrite !app_nil_r. destruct (sf_enum f); cbn [map filter]; [now rewrite map_map|reflexivity].
  - cbn. unfold str_facets. cbn. rewrite !app_nil_r, !filter_app.
    assert (Q : filter (carried (TSimple (SLang f))) (opt_facet "length" VInt (sf_length f)) = [] /\
      filter (carried (TSimple (SLang f))) (opt_facet "minLength" VInt (sf_minLength f)) = [] /\
      filter (carried (TSimple (SLang f))) (opt_facet "maxLength" VInt (sf_maxLength f)) = [] /\
      filter (carried (TSimple (SLang f))) (opt_facet "whiteSpace" VStr (sf_ws f)) = []).
    { repeat split; [destruct (sf_length f)|destruct (sf_minLength f)|destruct (sf_maxLength f)|destruct (sf_ws f)]; reflexivity. }
    destruct Q as (-> & -> & -> & ->). rewrite !app_nil_r. destruct (sf_enum f); cbn [map filter]; [now rewrite map_map|reflexivity].
  - cbn. unfold num_facets. destruct (df_enum f); reflexivity.
  - cbn [declared tf_enum tf_pattern tf_decimal]. unfold num_facets. destruct (df_enum (mk_integer ci u)); reflexivity.
Qed.

Lemma facets_ok O lim E G k s c d f : schema_describable O E G s ->
  In c (gs_complex s) -> e_cls E c = Some d -> In f (cd_fields d) -> is_plain f = true -> dc_class G c f = false ->
  exists doc x, generate_xsd (8 + k) O (lib_env lim) E G s = Ok doc /\ declares (xd_root doc) (type_name c) (tag_or_name f) x /\
    facets_of x = map (fun p => (fst p, py_str O (snd p))) (filter (carried (f_type f)) (declared G (f_type f))).
Proof.
  intros H Hc Hd Hf Hp Hg. eexists _, (describe_element O G c f). split; [now apply generate_ok|].
  split; [now apply class_declares with d|]. rewrite facets_elem by assumption. apply facets_read.
  destruct H as (_ & _ & _ & _ & _ & HC & _). rewrite Forall_forall in HC. destruct (HC _ Hc) as (d' & Hd' & _ & _ & Hfs).
  assert (d' = d) as -> by congruence. destruct (Hfs f Hf Hp) as (_ & _ & Hfa). apply (Hfa Hg).
Qed.

(** ** Types *)
Lemma refers_elem O G c f : refers_to (describe_element O G c f) = [type_ref (f_type f)].
Proof.
  assert (T : forall t t' a k, xsd_tag t (Elem (clark ns_xsd t') a k) = String.eqb t' t) by (intros; apply tag_xel).
  unfold refers_to, describe_element. destruct (dc_class G c f).
  - reflexivity.
  - assert (A : attr_of "type" (xel "element" ([("name", tag_or_name f)] ++ [] ++ min_attr (f_min f) ++
      match f_kind f with KList => occurs_attr (f_max f) | _ => [] end ++ [("nillable", yes_no (f_nillable f))])
      [xel "simpleType" [] [xel "restriction" [("base", type_ref (f_type f))] (describe_facets O G (f_type f))]]) = None).
    { destruct (f_min f), (f_kind f), (f_max f); reflexivity. }
    rewrite A. unfold kids_tagged. cbn [subnodes xel filter].
    rewrite tag_xel. cbn [String.eqb Ascii.eqb Bool.eqb flat_map subnodes filter xel]. rewrite tag_xel. reflexivity.
Qed.

Lemma builtin_known st n : builtin st = Some n -> In n xsd_builtins.
Proof.
  assert (A : forall c l, (forall k v, In (k, v) l -> In v xsd_builtins) -> assoc c l = Some n -> In n xsd_builtins).
  { intros c l H Ha. apply assoc_in in Ha. eauto. }
  destruct st as [c f|f| | | | |c f|c u| |]; cbn [builtin]; try (intros [= <-]; cbn; tauto); try discriminate.
  - apply A. cbn. intros k v I. repeat destruct I as [[= <- <-] |I]; cbn; try tauto.
  - apply A. cbn. intros k v I. repeat destruct I as [[= <- <-] |I]; cbn; try tauto.
  - destruct c; intros [= <-]; cbn; tauto.
Qed.

Lemma ref_builtin st n : builtin st = Some n -> unlisted st = false -> type_ref (TSimple st) = ("xsd:" ++ n)%string.
Proof. intros H1 H2. destruct st; cbn in *; try discriminate; rewrite ?H1, ?H2; try reflexivity; injection H1 as <-; reflexivity. Qed.

Lemma types_ok O lim E G k s c d f : schema_describable O E G s ->
  In c (gs_complex s) -> e_cls E c = Some d -> In f (cd_fields d) -> is_plain f = true -> nameable s (f_type f) ->
  exists doc x r, generate_xsd (8 + k) O (lib_env lim) E G s = Ok doc /\ declares (xd_root doc) (type_name c) (tag_or_name f) x /\
    refers_to x = [r] /\ resolves (xd_root doc) r /\
    (forall st n, f_type f = TSimple st -> builtin st = Some n -> r = ("xsd:" ++ n)%string) /\
    (forall c', f_type f = TComplex c' -> r = ("sns:" ++ type_name c')%string).
Proof.
  intros H Hc Hd Hf Hp Hn. eexists _, (describe_element O G c f), _. split; [now apply generate_ok|].
  split; [now apply class_declares with d|]. split; [apply refers_elem|]. cbn [xd_root]. split; [|split].
  - unfold resolves. rewrite schema_defines. destruct (f_type f) as [st|c'].
    + destruct Hn as [[Hb Hu] | (Hb & Hm & sc & I & Hsc)].
      * left. destruct (builtin st) as [n|] eqn:Eb; [|congruence]. exists n. split; [now apply ref_builtin|now apply builtin_known with st].
      * right. exists (type_name (st_class st)). split.
        -- destruct st; cbn in *; try congruence; rewrite ?Hb; reflexivity.
        -- apply in_app_iff. left. rewrite <- Hsc. now apply (in_map (fun sc => type_name (sc_name sc))).
    + right. exists (type_name c'). split; [reflexivity|]. apply in_app_iff. right. now apply in_map.
  - intros st n E1 Hb. rewrite E1 in *. destruct Hn as [[_ Hu] | (Hb' & _)]; [now apply ref_builtin|congruence].
  - intros c' ->. reflexivity.
Qed.

Lemma types_wrong O lim E G k s c d f st : schema_describable O E G s ->
  In c (gs_complex s) -> e_cls E c = Some d -> In f (cd_fields d) -> is_plain f = true -> f_type f = TSimple st ->
  st = SMaxOccurs \/ ((unlisted st = true \/ exists l, st = SLang l) /\ ~ defined_by s (type_name (st_class st))) ->
  exists doc x r, generate_xsd (8 + k) O (lib_env lim) E G s = Ok doc /\ declares (xd_root doc) (type_name c) (tag_or_name f) x /\
    refers_to x = [r] /\ ~ resolves (xd_root doc) r.
Proof.
  intros H Hc Hd Hf Hp Ht Hst. eexists _, (describe_element O G c f), _. split; [now apply generate_ok|].
  split; [now apply class_declares with d|]. split; [apply refers_elem|]. cbn [xd_root]. unfold resolves. rewrite schema_defines, Ht.
  destruct Hst as [-> | [Hst Hnd]].
  - intros [(n & E1 & I1) | (n & E1 & _)]; [|discriminate]. cbn in E1. injection E1 as <-. cbn in I1. intuition discriminate.
  - assert (R : type_ref (TSimple st) = ("sns:" ++ type_name (st_class st))%string).
    { destruct Hst as [Hu | (l & ->)]; [|reflexivity]. destruct st as [cc ff|ff| | | | |cc ff|ci u| |]; try discriminate.
      - cbn [type_ref]. rewrite Hu. destruct (builtin (SString cc ff)); reflexivity.
      - cbn [type_ref]. rewrite Hu. reflexivity. }
    rewrite R. intros [(n & E1 & _) | (n & E1 & I1)]; [discriminate|]. apply (app_inj_l "sns:") in E1. subst n. exact (Hnd I1).
Qed.
