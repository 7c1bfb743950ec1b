(** C55, C56, C69: describing classes as XSD. *)
From Coq Require Import String Ascii List ZArith NArith Bool.
From Verif Require Import PyBase PyRe Xml PyVal XsdSimple XsdComplex ExEnv LibClasses Py2Xsd SpecXsd SpecFacets
  PfXsd2 PfXsd3 PfXsd4 ExXsd.
Import ListNotations.
Open Scope string_scope.
Open Scope list_scope.
Open Scope nat_scope.

(** Without attributes, the document comes out, and it is the one written down in
    SpecXsd. *)
Theorem C55_partial :
  forall O lim E G k s, schema_describable O E G s ->
  generate_xsd (8 + k) O (lib_env lim) E G s = Ok (mkDoc [("sns", gs_tns s); ("xsd", "http://www.w3.org/2001/XMLSchema")] (describe_schema O E G s)).
Proof. exact generate_ok. Qed.
Print Assumptions C55_partial.
(** No class with an attribute can be described. *)
Theorem C55_attribute_refuted :
  forall O lim E G n s c d f doc, describes s c -> e_cls E c = Some d -> In f (cd_fields d) -> is_attr f = true ->
  generate_xsd n O (lib_env lim) E G s <> Ok doc.
Proof. exact attribute_hopeless. Qed.
Print Assumptions C55_attribute_refuted.
(** Nor can a schema that includes one without location, *)
Theorem C55_include_refuted :
  forall O lim E G n s i doc, In i (gs_includes s) -> i = None \/ i = Some "" -> generate_xsd n O (lib_env lim) E G s <> Ok doc.
Proof. exact include_hopeless. Qed.
Print Assumptions C55_include_refuted.
(** nor one with a simple type class whose fraction digits are a number, *)
Theorem C55_fraction_refuted :
  forall O lim E G n s st z doc, In st (gs_simple s) -> sc_fraction st = VInt z -> z <> 0%Z ->
  generate_xsd n O (lib_env lim) E G s <> Ok doc.
Proof. exact fraction_hopeless. Qed.
Print Assumptions C55_fraction_refuted.
(** nor one with a Decimal restricted to an enumeration of numbers. *)
Theorem C55_enumeration_refuted :
  forall O lim E G n s c d f z doc, In c (gs_complex s) -> e_cls E c = Some d -> In f (cd_fields d) -> is_plain f = true ->
  dc_class G c f = false -> carries_enumeration (f_type f) = true -> In ("enumeration", VInt z) (declared G (f_type f)) ->
  generate_xsd n O (lib_env lim) E G s <> Ok doc.
Proof. exact enumeration_hopeless. Qed.
Print Assumptions C55_enumeration_refuted.

Example C55_nonvacuous :
  schema_describable ex_oracle x_env x_decls x_schema /\
  (exists root, generate_xsd 8 ex_oracle (lib_env 0) x_env x_decls x_schema = Ok (mkDoc [("sns", "urn:shop"); ("xsd", "http://www.w3.org/2001/XMLSchema")] root)
     /\ length (subnodes root) = 8) /\
  (exists m, generate_xsd 8 ex_oracle (lib_env 0) x_env x_decls (x_with x_schema ["Tag"] [] []) = Err m) /\
  describes (x_with x_schema ["Tag"] [] []) "Tag".
Proof.
  split; [exact x_describable|]. split; [eexists; split; vm_compute; reflexivity|]. split; [eexists; vm_compute; reflexivity|].
  left. now left.
Qed.
Example C55_refuted_nonvacuous :
  (exists m, generate_xsd 8 ex_oracle (lib_env 0) x_env x_decls (x_with x_schema ["Item"] [None] []) = Err m) /\
  (exists m, generate_xsd 8 ex_oracle (lib_env 0) x_env x_decls
     (x_with x_schema ["Item"] [] [mkSt "Price" (SDecimal "Decimal" no_dfacets) [] (VInt 2) VNone]) = Err m) /\
  carries_enumeration (TSimple (SDecimal "Decimal" (mk_integer CInteger
     {| df_enum := Some [VInt 1]; df_fraction := None; df_maxEx := None; df_maxIn := None; df_minEx := None; df_minIn := None;
        df_pattern := None; df_total := None |}))) = true.
Proof. repeat split; try (eexists; vm_compute; reflexivity). Qed.

(** The facets in the document are exactly the declared ones that are carried:
    with the same values, and nothing else. *)
Theorem C56_partial :
  forall O lim E G k s c d f, schema_describable O E G s ->
  In c (gs_complex s) -> e_cls E c = Some d -> In f (cd_fields d) -> is_plain f = true -> dc_class G c f = false ->
  exists doc x, generate_xsd (8 + k) O (lib_env lim) E G s = Ok doc /\ declares (xd_root doc) (type_name c) (tag_or_name f) x /\
    facets_of x = map (fun p => (fst p, py_str O (snd p))) (filter (carried (f_type f)) (declared G (f_type f))).
Proof. exact facets_ok. Qed.
Print Assumptions C56_partial.
(** Lengths and white space are lost, *)
Theorem C56_length_refuted :
  forall O lim E G k s c d f, schema_describable O E G s ->
  In c (gs_complex s) -> e_cls E c = Some d -> In f (cd_fields d) -> is_plain f = true -> dc_class G c f = false ->
  exists doc x, generate_xsd (8 + k) O (lib_env lim) E G s = Ok doc /\ declares (xd_root doc) (type_name c) (tag_or_name f) x /\
    forall name v, In (name, v) (facets_of x) -> ~ In name ["length"; "minLength"; "maxLength"; "whiteSpace"].
Proof. exact lengths_dropped. Qed.
Print Assumptions C56_length_refuted.
(** so are bounds of zero, *)
Theorem C56_zero_refuted :
  forall O lim E G k s c d f name, schema_describable O E G s ->
  In c (gs_complex s) -> e_cls E c = Some d -> In f (cd_fields d) -> is_plain f = true -> dc_class G c f = false ->
  name <> "enumeration" -> (forall v, In (name, v) (declared G (f_type f)) -> v = VInt 0) ->
  exists doc x, generate_xsd (8 + k) O (lib_env lim) E G s = Ok doc /\ declares (xd_root doc) (type_name c) (tag_or_name f) x /\
    ~ In name (map fst (facets_of x)).
Proof. exact zero_dropped. Qed.
Print Assumptions C56_zero_refuted.
(** and enumerations of anything but String and Decimal themselves. *)
Theorem C56_enumeration_refuted :
  forall O lim E G k s c d f, schema_describable O E G s ->
  In c (gs_complex s) -> e_cls E c = Some d -> In f (cd_fields d) -> is_plain f = true -> dc_class G c f = false ->
  carries_enumeration (f_type f) = false ->
  exists doc x, generate_xsd (8 + k) O (lib_env lim) E G s = Ok doc /\ declares (xd_root doc) (type_name c) (tag_or_name f) x /\
    ~ In "enumeration" (map fst (facets_of x)).
Proof. exact enumeration_dropped. Qed.
Print Assumptions C56_enumeration_refuted.

Example C56_nonvacuous :
  declared x_decls x_size = [("enumeration", VStr "S"); ("enumeration", VStr "M"); ("length", VInt 1)] /\
  filter (carried x_size) (declared x_decls x_size) = [("enumeration", VStr "S"); ("enumeration", VStr "M")] /\
  declared x_decls x_count = [("enumeration", VInt 0); ("enumeration", VInt 5); ("pattern", VStr "[A-Z]+"); ("minInclusive", VInt 0);
                              ("maxInclusive", VInt 9); ("fractionDigits", VInt 0); ("totalDigits", VInt 2)] /\
  filter (carried x_count) (declared x_decls x_count) = [("pattern", VStr "[A-Z]+"); ("maxInclusive", VInt 9); ("totalDigits", VInt 2)] /\
  Forall (fun f => is_plain f = true) (cd_fields cd_item) /\
  map (dc_class x_decls "Item") (cd_fields cd_item) = [false; false; true] /\ In "Item" (gs_complex x_schema).
Proof.
  split; [reflexivity|]. split; [reflexivity|]. split; [reflexivity|]. split; [reflexivity|].
  split; [repeat constructor|]. split; [reflexivity|now left].
Qed.

(** A field refers to one type.  It is the built-in of its library type, or the
    class defined in the same document. *)
Theorem C69_partial :
  forall O lim E G k s c d f, schema_describable O E G s ->
  In c (gs_complex s) -> e_cls E c = Some d -> In f (cd_fields d) -> is_plain f = true -> nameable s (f_type f) ->
  exists doc x r, generate_xsd (8 + k) O (lib_env lim) E G s = Ok doc /\ declares (xd_root doc) (type_name c) (tag_or_name f) x /\
    refers_to x = [r] /\ resolves (xd_root doc) r /\
    (forall st n, f_type f = TSimple st -> builtin st = Some n -> r = ("xsd:" ++ n)%string) /\
    (forall c', f_type f = TComplex c' -> r = ("sns:" ++ type_name c')%string).
Proof. exact types_ok. Qed.
Print Assumptions C69_partial.
(** The restricted integers, tokens and language strings refer to types that are
    not there, and so does MaxOccurs. *)
Theorem C69_refuted :
  forall O lim E G k s c d f st, schema_describable O E G s ->
  In c (gs_complex s) -> e_cls E c = Some d -> In f (cd_fields d) -> is_plain f = true -> f_type f = TSimple st ->
  st = SMaxOccurs \/ ((unlisted st = true \/ exists l, st = SLang l) /\ ~ defined_by s (type_name (st_class st))) ->
  exists doc x r, generate_xsd (8 + k) O (lib_env lim) E G s = Ok doc /\ declares (xd_root doc) (type_name c) (tag_or_name f) x /\
    refers_to x = [r] /\ ~ resolves (xd_root doc) r.
Proof. exact types_wrong. Qed.
Print Assumptions C69_refuted.

Example C69_nonvacuous :
  map (fun f => type_ref (f_type f)) (cd_fields cd_xorder) = ["sns:item"; "xsd:date"; "sns:code"] /\
  Forall (fun f => nameable x_schema (f_type f)) (cd_fields cd_xorder) /\
  type_ref x_rank = "sns:positiveInteger" /\ unlisted (SInteger CPositiveInteger no_dfacets) = true /\
  ~ defined_by x_schema (type_name "PositiveInteger").
Proof.
  split; [reflexivity|]. split; [|repeat split; try reflexivity; cbn; intuition discriminate].
  apply Forall_cons; [cbn; tauto|]. apply Forall_cons; [left; split; [discriminate|reflexivity]|]. apply Forall_cons; [|constructor].
  right. split; [reflexivity|]. split; [discriminate|]. eexists. split; [now left|reflexivity].
Qed.
