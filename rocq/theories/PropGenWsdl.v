(** C54, C70: describing services as WSDL, and reading the descriptions. *)
From Coq Require Import String Ascii List ZArith NArith Bool.
From Verif Require Import PyBase PyRe Xml PyVal XsdSimple XsdComplex PyHttp Soap Client Dispatch ExEnv LibClasses Py2Xsd SpecXsd SpecFacets
  Py2Wsdl SpecGenWsdl PfGenWsdl2 PfGenWsdl3 PfGenWsdl4 PfGenWsdl5 PfGenWsdl6 SpecParse SpecRound ExXsd ExGenWsdl.
Import ListNotations.
Open Scope string_scope.
Open Scope list_scope.
Open Scope nat_scope.

(** The document that comes out is the one written down in SpecGenWsdl. *)
Theorem C54_document_partial :
  forall O lim E G k s, service_describable O E G s ->
  exists prefixes, generate_wsdl (10 + k) O (lib_env lim) E G s = Ok (mkDoc prefixes (describe_service O E G s)).
Proof. exact document_ok. Qed.
Print Assumptions C54_document_partial.
(** Its references resolve, *)
Theorem C54_consistent_partial :
  forall O lim E G k s doc, service_describable O E G s -> referable s ->
  generate_wsdl (10 + k) O (lib_env lim) E G s = Ok doc -> consistent doc.
Proof. exact generated_consistent. Qed.
Print Assumptions C54_consistent_partial.
(** from the service to what each operation takes and returns, *)
Theorem C54_leads_partial :
  forall O lim E G k s doc, service_describable O E G s -> referable s ->
  generate_wsdl (10 + k) O (lib_env lim) E G s = Ok doc ->
  forall m tag io, In m (ws_methods s) -> In (tag, io) [("input", wm_in m); ("output", wm_out m)] ->
  exists part, leads_to doc (ws_name s) (wm_op m) tag part /\ declares_io io part.
Proof. exact generated_leads. Qed.
Print Assumptions C54_leads_partial.
(** and on to the definition, when the first schema of the service holds it. *)
Theorem C54_defined_partial :
  forall O lim E G k s doc, service_describable O E G s -> referable s ->
  generate_wsdl (10 + k) O (lib_env lim) E G s = Ok doc ->
  forall m tag io sc rest, In m (ws_methods s) -> In (tag, io) [("input", wm_in m); ("output", wm_out m)] ->
  ws_schemas s = sc :: rest -> schema_has sc io ->
  exists part, leads_to doc (ws_name s) (wm_op m) tag part /\ declares_io io part /\ io_defined doc part.
Proof. exact generated_defined. Qed.
Print Assumptions C54_defined_partial.
(** The library's own lookup finds the declared message of each operation in the
    objects built for the service, *)
Theorem C54_built_lookup_partial :
  forall O lim E G s d b op m x io, service_describable O E G s -> referable s ->
  build_definitions O (lib_env lim) (ws_version s) E G s = Ok d ->
  In m (ws_methods s) -> In (x, io) [("input", wm_in m); ("output", wm_out m)] ->
  in_list d "bindings" b -> in_list b "operations" op -> py_get op "name" = Ok (VStr (wm_op m)) ->
  exists msg part, get_message_object d b op x = Ok msg /\ message_part msg = Ok part /\ part_declares io part.
Proof. exact built_lookup. Qed.
Print Assumptions C54_built_lookup_partial.
(** and in those read from the document, where every operation of the service is found. *)
Theorem C54_lookup_partial :
  forall O lim E G k s doc rx d, service_describable O E G s -> referable s ->
  generate_wsdl (10 + k) O (lib_env lim) E G s = Ok doc ->
  received (lib_env lim) (wn (ws_version s) "Definitions") (xd_root doc) rx ->
  parse_obj (10 + k) O (lib_env lim) (wn (ws_version s) "Definitions") rx = Ok d ->
  forall b op m x io, In m (ws_methods s) -> In (x, io) [("input", wm_in m); ("output", wm_out m)] ->
  in_list d "bindings" b -> in_list b "operations" op -> py_get op "name" = Ok (VStr (wm_op m)) ->
  exists msg part, get_message_object d b op x = Ok msg /\ message_part msg = Ok part /\ part_declares io part.
Proof. exact read_lookup. Qed.
Print Assumptions C54_lookup_partial.
Theorem C54_found_partial :
  forall O lim E G k s doc rx d, service_describable O E G s ->
  generate_wsdl (10 + k) O (lib_env lim) E G s = Ok doc ->
  received (lib_env lim) (wn (ws_version s) "Definitions") (xd_root doc) rx ->
  parse_obj (10 + k) O (lib_env lim) (wn (ws_version s) "Definitions") rx = Ok d ->
  forall m, In m (ws_methods s) ->
  exists b op, in_list d "bindings" b /\ in_list b "operations" op /\ py_get op "name" = Ok (VStr (wm_op m)).
Proof. exact read_found. Qed.
Print Assumptions C54_found_partial.

(** An element of any other schema is looked for in the first one. *)
Theorem C54_other_schema_refuted :
  exists O lim E G k s m sc doc part,
  service_describable O E G s /\ referable s /\ In m (ws_methods s) /\ In sc (ws_schemas s) /\ schema_has sc (wm_in m) /\
  generate_wsdl (10 + k) O (lib_env lim) E G s = Ok doc /\ leads_to doc (ws_name s) (wm_op m) "input" part /\ ~ io_defined doc part.
Proof. exact other_schema. Qed.
Print Assumptions C54_other_schema_refuted.
(** Operations may share a name: their messages cannot be told apart. *)
Theorem C54_same_names_refuted :
  exists O lim E G k s doc,
  service_describable O E G s /\ generate_wsdl (10 + k) O (lib_env lim) E G s = Ok doc /\ ~ consistent doc.
Proof. exact same_names. Qed.
Print Assumptions C54_same_names_refuted.
(** An operation whose name holds a colon is not found. *)
Theorem C54_colon_refuted :
  exists O lim E G s m d,
  service_describable O E G s /\ In m (ws_methods s) /\
  build_definitions O (lib_env lim) (ws_version s) E G s = Ok d /\
  get_message_object d (nth_of d "bindings" 0) (nth_of (nth_of d "bindings" 0) "operations" 0) "input" = Err ValueError.
Proof. exact colon_name. Qed.
Print Assumptions C54_colon_refuted.
(** A service without schemas cannot be described, nor an operation without output. *)
Theorem C54_no_schema_refuted :
  forall O lim E G n s, ws_schemas s = [] -> Forall method_describable (ws_methods s) ->
  generate_wsdl n O (lib_env lim) E G s = Err IndexError.
Proof. exact no_schema. Qed.
Print Assumptions C54_no_schema_refuted.
Theorem C54_one_way_refuted :
  exists O lim E G k s,
  generate_wsdl (10 + k) O (lib_env lim) E G s = Err AttributeError /\
  (forall m, In m (ws_methods s) -> wm_out m = IONone /\ io_describable (wm_in m)) /\ ws_methods s <> [].
Proof. exact one_way. Qed.
Print Assumptions C54_one_way_refuted.

Example C54_nonvacuous :
  service_describable ex_oracle x_env x_decls w_shop /\ referable w_shop /\
  (forall m, In m (ws_methods w_shop) -> schema_has x_schema (wm_in m) /\ schema_has x_schema (wm_out m)) /\
  (exists doc, generate_wsdl 10 ex_oracle (lib_env 10) x_env x_decls w_shop = Ok doc /\
     map (attr_of "name") (wsdl_kids "message" (xd_root doc)) =
       [Some "placeInput"; Some "placeOutput"; Some "packInput"; Some "packOutput"]).
Proof.
  split; [exact w_shop_describable|]. split; [exact w_shop_referable|]. split; [intros m [<- | [<- | []]]; split; vm_compute; tauto|].
  eexists. split; vm_compute; reflexivity.
Qed.
Example C54_lookup_nonvacuous :
  exists d b op, build_definitions ex_oracle (lib_env 10) (ws_version w_shop) x_env x_decls w_shop = Ok d /\
    in_list d "bindings" b /\ in_list b "operations" op /\ py_get op "name" = Ok (VStr (wm_op w_pack)).
Proof.
  eexists. exists (nth_of (match build_definitions ex_oracle (lib_env 10) V12 x_env x_decls w_shop with Ok d => d | _ => VNone end) "bindings" 0).
  eexists. split; [vm_compute; reflexivity|]. split; [eexists _, _; split; [vm_compute; reflexivity|left; vm_compute; reflexivity]|].
  split; [eexists _, _; split; [vm_compute; reflexivity|right; left; reflexivity]|]. vm_compute. reflexivity.
Qed.
Example C54_refuted_nonvacuous :
  ws_schemas w_bare = [] /\ Forall method_describable (ws_methods w_bare) /\ ws_methods w_bare <> [].
Proof. split; [reflexivity|]. split; [|discriminate]. exact (proj1 (proj2 w_bare_ok)). Qed.

(** ** C70 *)
(** Every object of the classes for XSD and WSDL documents survives being written and read. *)
Theorem C70_library :
  forall O lim n c v tag ns efd, In c (map fst lib_classes) -> rt_typed O (lib_env lim) (TComplex c) v -> vdepth v <= n ->
  ncname_ok tag = true -> ns_good ns ->
  exists x, xml_of n O (lib_env lim) v tag ns efd = Ok x /\
    forall doc, received (lib_env lim) c x doc -> exists v', parse_obj n O (lib_env lim) c doc = Ok v' /\ erase v' = erase v.
Proof. exact library_reads. Qed.
Print Assumptions C70_library.
(** A generated XSD document reads back as the schema object it was made from, *)
Theorem C70_schema :
  forall O lim E G k s doc o x, schema_describable O E G s ->
  generate_xsd (8 + k) O (lib_env lim) E G s = Ok doc -> generate_xsdspec O (lib_env lim) E G s = Ok o ->
  received (lib_env lim) (xs "Schema") (xd_root doc) x ->
  exists o', parse_obj (8 + k) O (lib_env lim) (xs "Schema") x = Ok o' /\ data o' = data o.
Proof. exact xsd_reads. Qed.
Print Assumptions C70_schema.
(** and a WSDL document as the definitions. *)
Theorem C70_definitions :
  forall O lim E G k s doc d x, service_describable O E G s ->
  generate_wsdl (10 + k) O (lib_env lim) E G s = Ok doc -> build_definitions O (lib_env lim) (ws_version s) E G s = Ok d ->
  received (lib_env lim) (wn (ws_version s) "Definitions") (xd_root doc) x ->
  exists d', parse_obj (10 + k) O (lib_env lim) (wn (ws_version s) "Definitions") x = Ok d' /\ data d' = data d.
Proof. exact wsdl_reads. Qed.
Print Assumptions C70_definitions.

Example C70_nonvacuous :
  exists doc d d', generate_wsdl 10 ex_oracle (lib_env 10) x_env x_decls w_shop = Ok doc /\
    build_definitions ex_oracle (lib_env 10) V12 x_env x_decls w_shop = Ok d /\
    received (lib_env 10) (wn V12 "Definitions") (xd_root doc) (xd_root doc) /\
    parse_obj 10 ex_oracle (lib_env 10) (wn V12 "Definitions") (xd_root doc) = Ok d' /\ d' <> d /\ data d' = data d.
Proof.
  eexists _, _, _. split; [vm_compute; reflexivity|]. split; [vm_compute; reflexivity|]. split.
  - eexists. split; [apply ly_same|left; vm_compute; reflexivity].
  - split; [vm_compute; reflexivity|]. split; [discriminate|vm_compute; reflexivity].
Qed.
