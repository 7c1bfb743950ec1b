(** What objects write fits the XSD document of their classes. *)
From Coq Require Import String Ascii List ZArith NArith Bool Lia Permutation.
From Verif Require Import PyBase PyRe Xml PyVal XsdSimple XsdComplex LibClasses Py2Xsd SpecXsd SpecSimple SpecRender SpecRound SpecValid SpecGiven PfBase PfSimple PfRender PfValid.
Import ListNotations.
Open Scope nat_scope.
Open Scope string_scope.
Open Scope list_scope.

(** ** Looking up names *)
Definition node_name (x : node) : option string := assoc "name" (el_attrs x).
Lemma the_one_named kinds n l x : NoDup (map node_name l) -> In x l -> defines kinds n x -> the_one (defines kinds n) l x.
Proof.
  intros Hd Hin Hx. apply in_split in Hin as (l1 & l2 & ->). exists l1, l2. split; [reflexivity|]. split; [exact Hx|].
  intros y Hy (_ & Ey). rewrite map_app in Hd. cbn [map] in Hd. apply NoDup_remove_2 in Hd. apply Hd. rewrite <- map_app.
  destruct Hx as (_ & Ex). apply in_map_iff. exists y. split; [unfold node_name; congruence | exact Hy].
Qed.
Lemma the_one_around P pre l post x : the_one P l x -> (forall y, In y pre -> ~ P y) -> (forall y, In y post -> ~ P y) ->
  the_one P (pre ++ l ++ post) x.
Proof.
  intros (l1 & l2 & -> & Hx & Ho) H1 H2. exists (pre ++ l1), (l2 ++ post). split; [now rewrite <- !app_assoc|]. split; [exact Hx|].
  intros y. rewrite !in_app_iff. intros [[H | H] | [H | H]]; auto; apply Ho; rewrite in_app_iff; auto.
Qed.
Lemma wrong_tag kinds n k a kids : ~ In k kinds -> ~ defines kinds n (xel k a kids).
Proof. intros H ((k' & Hk & E) & _). cbn in E. apply clark_inj in E. subst k'. contradiction. Qed.

Section Schema.
  Variable O : oracle. Variable E : env. Variable G : decls. Variable s : gschema. Variable mean : string -> re.
  Hypothesis HD : schema_describable O E G s.
  Hypothesis HS : distinct_names s.
  Definition the_doc : xdocument := mkDoc [("sns", gs_tns s); ("xsd", ns_xsd)] (describe_schema O E G s).
  Notation D := the_doc.

  Lemma doc_tns : own_namespace D (gs_tns s).
  Proof. reflexivity. Qed.
  Lemma doc_xsd n : names D ("xsd:" ++ n)%string ns_xsd n.
  Proof. exists "xsd". split; reflexivity. Qed.
  Lemma doc_sns n : names D ("sns:" ++ n)%string (gs_tns s) n.
  Proof. exists "sns". split; reflexivity. Qed.

  Definition typedefs : list node := map describe_simple (gs_simple s) ++ map (fun c => describe_class O G true c (class_of E c)) (gs_complex s).
  Lemma typedefs_names : NoDup (map node_name typedefs).
  Proof.
    assert (X : map node_name typedefs = map Some (map type_name (map sc_name (gs_simple s) ++ gs_complex s))).
    { unfold typedefs. rewrite !map_app, !map_map. f_equal; apply map_ext; reflexivity. }
    rewrite X. apply FinFun.Injective_map_NoDup; [intros a b [= ->]; reflexivity|]. apply HS.
  Qed.
  Lemma type_found n x : In x typedefs -> defines ["simpleType"; "complexType"] n x -> global_type D n x.
  Proof.
    intros Hin Hx. unfold global_type, root, the_doc, describe_schema, xel. cbn [xd_root el_kids].
    match goal with |- the_one _ (?a ++ ?b ++ ?c ++ ?d ++ ?e) _ => replace (a ++ b ++ c ++ d ++ e) with ((a ++ b) ++ typedefs ++ e) end.
    2:{ unfold typedefs. now rewrite <- !app_assoc. }
    apply the_one_around; [now apply the_one_named; [apply typedefs_names|..]| |]; intros y Hy.
    - apply in_app_or in Hy as [Hy | Hy]; apply in_map_iff in Hy as (i & <- & _); apply wrong_tag; cbn; intuition discriminate.
    - apply in_map_iff in Hy as (i & <- & _). apply wrong_tag. cbn. intuition discriminate.
  Qed.
  Lemma class_found c : In c (gs_complex s) -> global_type D (type_name c) (describe_class O G true c (class_of E c)).
  Proof.
    intros H. apply type_found; [apply in_or_app; right; now apply (in_map (fun c => describe_class O G true c (class_of E c)))|].
    split; [|reflexivity]. exists "complexType". split; [cbn; auto | reflexivity].
  Qed.
  Lemma simple_found st : In st (gs_simple s) -> global_type D (type_name (sc_name st)) (describe_simple st).
  Proof.
    intros H. apply type_found; [apply in_or_app; left; now apply in_map|].
    split; [|reflexivity]. exists "simpleType". split; [cbn; auto | reflexivity].
  Qed.
  Lemma element_found n el : In (n, el) (gs_elements s) -> global_element D n (describe_toplevel O E G (n, el)).
  Proof.
    intros H. unfold global_element, root, the_doc, describe_schema, xel. cbn [xd_root el_kids].
    match goal with |- the_one _ (?a ++ ?b ++ ?c ++ ?d ++ ?e) _ => replace (a ++ b ++ c ++ d ++ e) with ((a ++ b ++ c ++ d) ++ e ++ []) end.
    2:{ rewrite <- !app_assoc. now rewrite app_nil_r. }
    apply the_one_around.
    - apply the_one_named.
      + rewrite map_map. replace (map (fun x => node_name (describe_toplevel O E G x)) (gs_elements s)) with (map Some (map fst (gs_elements s))).
        * apply FinFun.Injective_map_NoDup; [intros a b [= ->]; reflexivity|]. apply HS.
        * rewrite map_map. apply map_ext. reflexivity.
      + now apply in_map.
      + split; [|reflexivity]. exists "element". split; [cbn; auto | reflexivity].
    - intros y Hy. rewrite !in_app_iff in Hy. destruct Hy as [Hy | [Hy | [Hy | Hy]]]; apply in_map_iff in Hy as (i & <- & _); apply wrong_tag; cbn; intuition discriminate.
    - intros y [].
  Qed.

  (** ** Texts *)
  Lemma strings_in l x : In x (map (facet "enumeration") l) -> exists v, In v l /\ x = facet "enumeration" v.
  Proof. intros H. apply in_map_iff in H as (v & <- & H). eauto. Qed.
  Lemma own_written st u v t : In st (gs_simple s) -> own_string mean st u -> st_accept O u v = Ok v -> ordinary O u v -> st_xmlvalue O u v = Ok (VStr t) ->
    text_of mean D (type_ref (TSimple u)) t.
  Proof.
    intros Hin (c & f & Hc & Hb & Hfr & -> & Hl & Hf & He & Hp) Ha Ho Hx.
    destruct v; try contradiction. injection Hx as ->.
    pose proof Ha as Ha'. apply (string_accept_iff O (sc_name st) f t t Hf) in Ha' as (_ & Sp & Se & _).
    assert (X : type_ref (TSimple (SString (sc_name st) f)) = ("sns:" ++ type_name (sc_name st))%string) by (unfold type_ref; rewrite Hl; reflexivity).
    rewrite X. eapply tx_own.
    - exact doc_tns.
    - apply doc_sns.
    - apply simple_found. exact Hin.
    - unfold describe_simple, xel. do 2 eexists. split; reflexivity.
    - rewrite Hb. destruct Hc as [<- | [<- | []]]; (eapply tx_builtin; [apply doc_xsd | constructor]).
    - rewrite Hfr. set (ps := match sc_pattern st with VStr (String a q) => [facet "pattern" (String a q)] | _ => [] end).
      match goal with |- meets _ (_ ++ ?l) _ => replace l with ps by (unfold ps; destruct (sc_pattern st) as [| | | | | |[|a q]| | | | | | |]; reflexivity) end.
      assert (Ps : forall x, In x ps -> exists a q, sc_pattern st = VStr (String a q) /\ x = facet "pattern" (String a q)).
      { intros x. unfold ps. destruct (sc_pattern st) as [| | | | | |[|a q]| | | | | | |]; try (intros []; fail). intros [<- | []]. eauto. }
      assert (C : forall x, In x (map (facet "enumeration") (strings (sc_enum st)) ++ ps) ->
                  (exists v, In v (strings (sc_enum st)) /\ x = facet "enumeration" v) \/ (exists a q, sc_pattern st = VStr (String a q) /\ x = facet "pattern" (String a q))).
      { intros x H. apply in_app_or in H as [H | H]; [left; now apply strings_in | right; now apply Ps]. }
      split.
      { intros x H. destruct (C x H) as [(v & _ & ->) | (a & q & _ & ->)]; do 2 eexists; (split; [|apply facet_is_facet; split; reflexivity]); cbn; tauto. }
      split.
      { destruct (strings (sc_enum st)) as [|w l] eqn:El.
        - left. intros v x H F. destruct (C x H) as [(v' & [] & _) | (a & q & _ & ->)]. apply facet_is_facet in F as [F _]. discriminate F.
        - right. exists (facet "enumeration" t). split; [|now apply facet_is_facet]. apply in_or_app. left. apply in_map. apply Se. exact He. }
      split.
      { destruct (sc_pattern st) as [| | | | | |[|a q]| | | | | | |] eqn:Ep;
          try (left; intros v x H F; destruct (C x H) as [(v' & _ & ->) | (a' & q' & Ea & _)]; [apply facet_is_facet in F as [F _]; discriminate F | discriminate Ea]).
        right. exists (String a q), (facet "pattern" (String a q)). split; [apply in_or_app; right; now left|]. split; [now apply facet_is_facet|].
        apply pattern_full; [apply Sp; exact Hp|]. apply not_nl, Ho. congruence. }
      repeat split; intros b x H F; destruct (C x H) as [(v' & _ & ->) | (a & q & _ & ->)]; apply facet_is_facet in F as [F _]; discriminate F.
  Qed.

  (** ** Declarations *)
  Section Declaration.
    Variable c : string. Variable f : field.
    Let x := describe_element O G c f.
    Lemma decl_name : assoc "name" (el_attrs x) = Some (tag_or_name f).
    Proof. reflexivity. Qed.
    Lemma decl_type : assoc "type" (el_attrs x) = if dc_class G c f then Some (type_ref (f_type f)) else None.
    Proof. unfold x, describe_element, xel. cbn [el_attrs]. destruct (dc_class G c f), (f_min f), (f_kind f), (f_max f); reflexivity. Qed.
    Lemma decl_min : assoc "minOccurs" (el_attrs x) = option_map dec_Z (f_min f).
    Proof. unfold x, describe_element, xel. cbn [el_attrs]. destruct (dc_class G c f), (f_min f), (f_kind f), (f_max f); reflexivity. Qed.
    Lemma decl_max : assoc "maxOccurs" (el_attrs x) = match f_kind f, f_max f with KList, OInt z => Some (dec_Z z) | KList, OUnbounded => Some "unbounded" | _, _ => None end.
    Proof. unfold x, describe_element, xel. cbn [el_attrs]. destruct (dc_class G c f), (f_min f), (f_kind f), (f_max f); reflexivity. Qed.
    Lemma decl_nillable : assoc "nillable" (el_attrs x) = Some (yes_no (f_nillable f)).
    Proof. unfold x, describe_element, xel. cbn [el_attrs]. destruct (dc_class G c f), (f_min f), (f_kind f), (f_max f); reflexivity. Qed.
  End Declaration.

  Lemma simple_fits c f u v t : type_ok mean G s c f -> field_describable O G c f -> f_type f = TSimple u ->
    st_accept O u v = Ok v -> ordinary O u v -> st_xmlvalue O u v = Ok (VStr t) -> text_fits mean D (describe_element O G c f) t.
  Proof.
    intros Ht Hd Hu Ha Ho Hx. unfold type_ok in Ht. destruct Hd as (_ & _ & Hd). destruct (dc_class G c f) eqn:Ec.
    - left. exists (type_ref (f_type f)). rewrite decl_type, Ec, Hu in *. split; [reflexivity|].
      destruct Ht as [Hb | (st & Hin & Hst)].
      + destruct (bare_written O u v t Hb Ha Ho Hx) as (n & -> & Hn). eapply tx_builtin; [apply doc_xsd | exact Hn].
      + exact (own_written st u v t Hin Hst Ha Ho Hx).
    - right. destruct Ht as (u' & Hu' & Hr). rewrite Hu in Hu'. injection Hu' as <-. specialize (Hd eq_refl). rewrite Hu in Hd. destruct Hd as (Hen & _).
      destruct (restricted_written O mean G u v t Hr Hen Ha Ho Hx) as ((n & Hn & Hlex) & Hm).
      eexists _, _, _. rewrite decl_type, Ec. split; [reflexivity|].
      split; [unfold describe_element, xel; cbn [el_kids]; rewrite Ec, Hu; reflexivity|].
      split; [unfold xel; do 2 eexists; split; reflexivity|].
      rewrite Hn. split; [eapply tx_builtin; [apply doc_xsd | exact Hlex] | exact Hm].
  Qed.
End Schema.
