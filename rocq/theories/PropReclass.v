(** C79: classes come back from the XSD document that is generated from them. *)
From Coq Require Import String Ascii List ZArith NArith Bool Permutation.
From Verif Require Import PyBase PyRe Xml PyVal XsdSimple XsdComplex XsdMeta ExEnv LibClasses Py2Xsd SpecXsd GenOrder SpecOrder PfOrder2 Xsd2Py PyLoad XsdPrefixes
  SpecSimple SpecParse SpecRound SpecGenCode SpecGenWsdl SpecUrl SpecService SpecLoadable SpecReclass PfReclass3 ExGenCode ExReclass.
Import ListNotations.
Open Scope nat_scope.
Open Scope string_scope.
Open Scope list_scope.

(** The document generated for a schema can be read, the module printed for it
    can be imported, and it has a class for each class of the schema.  All of
    them can be called. *)
Theorem C79_import :
  forall sort n rt limit lim k O E G s rank doc x, list_sort sort -> 0 < n ->
  schema_describable O E G s -> schema_reproducible E G limit rank s ->
  generate_xsd (8 + k) O (lib_env lim) E G s = Ok doc -> received (lib_env lim) (xs "Schema") (xd_root doc) x ->
  exists m, regenerate sort n rt limit (8 + k) O (lib_env lim) doc x = Ok m /\
    Permutation (map fst (ms_names (md_state m))) (class_names s) /\
    forall c, In c (gs_complex s) -> exists fs, new_instance O (module_env limit (md_state m)) c = Ok fs.
Proof. exact reclassed. Qed.
Print Assumptions C79_import.
(** These classes have the fields of the original ones, in the same order, and
    belong to a schema with the same namespace. *)
Theorem C79_classes :
  forall sort n rt limit lim k O E G s rank doc x, list_sort sort -> 0 < n ->
  schema_describable O E G s -> schema_reproducible E G limit rank s ->
  generate_xsd (8 + k) O (lib_env lim) E G s = Ok doc -> received (lib_env lim) (xs "Schema") (xd_root doc) x ->
  forall m, regenerate sort n rt limit (8 + k) O (lib_env lim) doc x = Ok m ->
  forall c d, In c (gs_complex s) -> e_cls E c = Some d ->
  exists d', module_class m c d' /\ same_class m c d d' /\ cd_schema d' = Some {| si_tns := Some (gs_tns s); si_efd := gs_efd s |}.
Proof. exact same_classes. Qed.
Print Assumptions C79_classes.
(** The elements of the schema are there, with the same types; an element whose
    type was passed as an instance has a class of its own with the same fields. *)
Theorem C79_elements :
  forall sort n rt limit lim k O E G s rank doc x, list_sort sort -> 0 < n ->
  schema_describable O E G s -> schema_reproducible E G limit rank s ->
  generate_xsd (8 + k) O (lib_env lim) E G s = Ok doc -> received (lib_env lim) (xs "Schema") (xd_root doc) x ->
  forall m, regenerate sort n rt limit (8 + k) O (lib_env lim) doc x = Ok m ->
  map fst (md_elements m) = map fst (gs_elements s) /\
  forall name el, In (name, el) (gs_elements s) ->
  exists t, assoc name (md_elements m) = Some (t, option_map written_group (ge_subst el)) /\
    if ge_class el then same_type m (ge_type el) t
    else t = TComplex (capital name) /\
         exists c d d', ge_type el = TComplex c /\ e_cls E c = Some d /\ module_class m (capital name) d' /\ same_class m (capital name) d d'.
Proof. exact same_elements. Qed.
Print Assumptions C79_elements.
(** A simple type made from strings accepts the same enumeration and pattern. *)
Theorem C79_simple :
  forall sort n rt limit lim k O E G s rank doc x, list_sort sort ->
  schema_describable O E G s -> schema_reproducible E G limit rank s ->
  generate_xsd (8 + k) O (lib_env lim) E G s = Ok doc -> received (lib_env lim) (xs "Schema") (xd_root doc) x ->
  forall m, regenerate sort n rt limit (8 + k) O (lib_env lim) doc x = Ok m ->
  forall st c, In st (gs_simple s) -> sc_base st = SString c no_sfacets -> sc_fraction st = VNone ->
  (sc_pattern st = VNone \/ exists p, sc_pattern st = VStr p /\ p <> "" /\ no_top_alt (rt_re rt p) = true) ->
  exists t, provides m (sc_name st) (TSimple t) /\
    forall w, st_accept O t (VStr w) = Ok (VStr w) <->
      (sc_enum st = [] \/ In (VStr w) (sc_enum st)) /\ (forall p, sc_pattern st = VStr p -> pattern_sat (rt_re rt p) w).
Proof. exact same_simple. Qed.
Print Assumptions C79_simple.
Example C79_nonvacuous :
  list_sort insertion_sort /\ schema_describable ex_oracle r_env r_decls r_schema /\ schema_reproducible r_env r_decls 20 r_rank r_schema /\
  no_top_alt (rt_re g_rt "\d+") = true /\
  exists doc m, generate_xsd 8 ex_oracle (lib_env 10) r_env r_decls r_schema = Ok doc /\
    received (lib_env 10) (xs "Schema") (xd_root doc) (xd_root doc) /\
    regenerate insertion_sort 20 g_rt 20 8 ex_oracle (lib_env 10) doc (xd_root doc) = Ok m /\
    map fst (ms_names (md_state m)) = ["Kind"; "Zip"; "Order"; "Item"; "Maker"; "Box"].
Proof.
  split; [exact insertion_sorts|]. split; [exact r_describable|]. split; [exact r_reproducible|]. split; [vm_compute; reflexivity|].
  eexists _, _. split; [vm_compute; reflexivity|]. split; [eexists; split; [apply ly_same|left; vm_compute; reflexivity]|]. split; vm_compute; reflexivity.
Qed.

(** What is not the same: attributes are called like their tags, and defaults and
    namespaces of single fields are lost; *)
Theorem C79_names_refuted :
  exists m f', r_back (mkField "a" KElement t_str (Some "b") (Some 1%Z) ONone false (VStr "x") (Some "urn:x")) = Ok m /\ r_field_of m = Some f' /\
    f_name f' = "b" /\ f_default f' = VNone /\ f_ns f' = None.
Proof. eexists _, _. split; [vm_compute; reflexivity|]. split; [vm_compute; reflexivity|]. repeat split. Qed.
Print Assumptions C79_names_refuted.
(** a list of at most one element becomes a single element; *)
Theorem C79_list_refuted :
  exists m f', r_back (ex_list "items" "item" t_str (Some 0%Z) (OInt 1)) = Ok m /\ r_field_of m = Some f' /\ f_kind f' = KElement.
Proof. eexists _, _. split; [vm_compute; reflexivity|]. split; vm_compute; reflexivity. Qed.
Print Assumptions C79_list_refuted.
(** and with a type the generator does not know, or a class outside the schema,
    the module cannot be imported. *)
Theorem C79_types_refuted :
  r_back (ex_elem "rank" (TSimple (SInteger CPositiveInteger no_dfacets))) = Err AttributeError /\
  r_back (ex_elem "other" (TComplex "Other")) = Err AttributeError.
Proof. split; vm_compute; reflexivity. Qed.
Print Assumptions C79_types_refuted.
