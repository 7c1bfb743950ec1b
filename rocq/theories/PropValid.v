(** C85: what objects write is valid against the XSD documents of their classes. *)
From Coq Require Import String List ZArith NArith Bool.
From Verif Require Import PyBase PyRe Xml PyVal XsdSimple XsdComplex ExEnv LibClasses Py2Xsd SpecXsd SpecRound SpecValid SpecGiven PfValid2 PfValid3 PfValid4 PfValid5 ExValid.
Import ListNotations.
Open Scope nat_scope.
Open Scope string_scope.
Open Scope list_scope.

(** ** C85. Documents are valid against the schema they are published with *)
Theorem C85_valid :
  forall O lim E G j s mean n c name el v x, schema_describable O E G s -> schema_ok mean E G s ->
  In (name, el) (gs_elements s) -> ge_type el = TComplex c -> ncname_ok name = true -> complete O E (TComplex c) v ->
  xml_of n O E v name (Some (gs_tns s)) (Some (gs_efd s)) = Ok x ->
  exists doc, generate_xsd (8 + j) O (lib_env lim) E G s = Ok doc /\ valid mean doc x.
Proof. exact written_valid. Qed.
Print Assumptions C85_valid.
(** And so is what is sent: after serialisation, and with the white space that
    pretty-printing puts between elements. *)
Theorem C85_sent :
  forall O lim E G j s mean n c name el v x y, schema_describable O E G s -> schema_ok mean E G s ->
  In (name, el) (gs_elements s) -> ge_type el = TComplex c -> ncname_ok name = true -> complete O E (TComplex c) v ->
  xml_of n O E v name (Some (gs_tns s)) (Some (gs_efd s)) = Ok x -> layout (wire x) y ->
  exists doc, generate_xsd (8 + j) O (lib_env lim) E G s = Ok doc /\ valid mean doc y.
Proof. exact written_layout_valid. Qed.
Print Assumptions C85_sent.
Example C85_nonvacuous :
  schema_describable ex_oracle v_env v_decls v_schema /\ schema_ok v_mean v_env v_decls v_schema /\
  In ("order", mkGel (TComplex "Order") true None) (gs_elements v_schema) /\ complete ex_oracle v_env (TComplex "Order") v_value /\
  (exists x, xml_of 4 ex_oracle v_env v_value "order" (Some "urn:shop") (Some "qualified") = Ok x /\ length (el_kids x) = 5) /\
  In ("dates", mkGel (TComplex "Dates") false None) (gs_elements v_schema) /\ complete ex_oracle v_env (TComplex "Dates") (v_when (Some (7200 * 1000000)%Z)) /\
  exists doc, generate_xsd 8 ex_oracle (lib_env 0) v_env v_decls v_schema = Ok doc /\ length (el_kids (xd_root doc)) = 7.
Proof.
  split; [exact v_describable|]. split; [exact v_schema_ok|]. split; [now left|]. split; [exact v_complete|]. split; [eexists; split; vm_compute; reflexivity|].
  split; [right; now left|]. split; [exact v_when_complete|]. eexists; split; vm_compute; reflexivity.
Qed.

(** The conditions matter.  A ListElement without bounds is written as any number
    of elements, but described as exactly one: *)
Theorem C85_list_refuted :
  forall mean, exists doc x y, generate_xsd 8 ex_oracle (lib_env 0) v_env v_decls w_schema = Ok doc /\
  w_xml (w_basket (VStr "n") []) "basket" = Ok x /\ w_xml (w_basket (VStr "n") ["a"; "b"]) "basket" = Ok y /\ ~ valid mean doc x /\ ~ valid mean doc y.
Proof. exact w_list. Qed.
Print Assumptions C85_list_refuted.
(** an element that is required and has no value is left out; *)
Theorem C85_required_refuted :
  forall mean, exists doc x, generate_xsd 8 ex_oracle (lib_env 0) v_env v_decls w_schema = Ok doc /\
  w_xml (w_basket VNone ["a"]) "basket" = Ok x /\ ~ valid mean doc x.
Proof. exact w_required. Qed.
Print Assumptions C85_required_refuted.
(** of a choice, everything that is given is written; *)
Theorem C85_choice_refuted :
  forall mean, exists doc x, generate_xsd 8 ex_oracle (lib_env 0) v_env v_decls w_schema = Ok doc /\
  w_xml w_contact "contact" = Ok x /\ ~ valid mean doc x.
Proof. exact w_choice. Qed.
Print Assumptions C85_choice_refuted.
(** a Decimal element accepts True and numbers that Python writes with an
    exponent, and its description as xsd:decimal does not; *)
Theorem C85_decimal_refuted :
  forall mean, exists doc x y, generate_xsd 8 ex_oracle (lib_env 0) v_env v_decls w_schema = Ok doc /\
  st_accept ex_oracle (SDecimal "Decimal" no_dfacets) (VBool true) = Ok (VBool true) /\ st_accept ex_oracle (SDecimal "Decimal" no_dfacets) w_tiny = Ok w_tiny /\
  w_xml (w_parcel (VBool true)) "parcel" = Ok x /\ w_xml (w_parcel w_tiny) "parcel" = Ok y /\ ~ valid mean doc x /\ ~ valid mean doc y.
Proof. exact w_decimal. Qed.
Print Assumptions C85_decimal_refuted.
(** and dates may be 15 hours ahead of UTC. *)
Theorem C85_zone_refuted :
  forall mean, exists doc x, generate_xsd 8 ex_oracle (lib_env 0) v_env v_decls w_schema = Ok doc /\
  st_accept ex_oracle SDate (VXSDDate 2024 2 29 (Some (54000 * 1000000)%Z)) = Ok (VXSDDate 2024 2 29 (Some (54000 * 1000000)%Z)) /\
  w_xml (v_when (Some (54000 * 1000000)%Z)) "dates" = Ok x /\ ~ valid mean doc x.
Proof. exact w_zone. Qed.
Print Assumptions C85_zone_refuted.
Example C85_refuted_nonvacuous :
  exists x, w_xml (w_basket (VStr "n") ["a"]) "basket" = Ok x /\ length (el_kids x) = 2.
Proof. eexists; split; vm_compute; reflexivity. Qed.
