(** C86: classes read every document that is valid against their XSD. *)
From Coq Require Import String List ZArith NArith Bool.
From Verif Require Import PyBase PyRe Xml PyVal XsdSimple XsdComplex ExEnv LibClasses Py2Xsd SpecXsd SpecTotal SpecValid SpecGiven SpecRead PfRead3 PfRead4 ExValid ExRead.
Import ListNotations.
Open Scope nat_scope.
Open Scope string_scope.
Open Scope list_scope.

(** ** C86. A valid document is read, and as what it says *)
Theorem C86_reads :
  forall O lim E G j s mean name el c x n, reads_numbers O -> schema_describable O E G s -> schema_ok mean E G s -> schema_readable O E G s ->
  In (name, el) (gs_elements s) -> ge_type el = TComplex c -> el_tag x = clark (gs_tns s) name -> spelled E s (TComplex c) x -> height x < n ->
  exists doc, generate_xsd (8 + j) O (lib_env lim) E G s = Ok doc /\
    (valid mean doc x -> exists v, parse_obj n O E c x = Ok v /\ says O E s (TComplex c) x v).
Proof. exact valid_reads_doc. Qed.
Print Assumptions C86_reads.
(** A document does not say two things. *)
Theorem C86_one_meaning :
  forall O E s, (forall c d, e_cls E c = Some d -> NoDup (map f_name (cd_fields d))) ->
  forall t x v v', says O E s t x v -> says O E s t x v' -> v = v'.
Proof. exact says_one. Qed.
Print Assumptions C86_one_meaning.
Example C86_nonvacuous :
  reads_numbers r_oracle /\ schema_describable r_oracle r_env v_decls r_schema /\ schema_ok v_mean r_env v_decls r_schema /\ schema_readable r_oracle r_env v_decls r_schema /\
  In ("sheet", mkGel (TComplex "Sheet") true None) (gs_elements r_schema) /\ el_tag r_xml = clark "urn:shop" "sheet" /\ spelled r_env r_schema (TComplex "Sheet") r_xml /\ height r_xml < 20 /\
  generate_xsd 8 r_oracle (lib_env 0) r_env v_decls r_schema = Ok r_doc /\ valid v_mean r_doc r_xml /\ parse_obj 20 r_oracle r_env "Sheet" r_xml = Ok r_value.
Proof.
  split; [exact r_numbers|]. split; [exact r_describable|]. split; [exact r_schema_ok|]. split; [exact r_schema_readable|]. split; [now left|]. split; [reflexivity|].
  split; [exact r_spelled|]. split; [vm_compute; repeat constructor|]. split; [vm_compute; reflexivity|]. split; [exact r_valid|exact r_reads].
Qed.

(** The conditions matter.  Valid documents are refused where a boolean is
    spelled 1, *)
Theorem C86_boolean_refuted :
  exists doc x, generate_xsd 8 r_oracle (lib_env 0) q_env q_decls q_schema = Ok doc /\ valid v_mean doc x /\ q_read "Flag" x = Err ValueError.
Proof. exists q_doc, (q_xml "flag" "1"). split; [exact q_generated|]. split; [exact q_flag|]. vm_compute. reflexivity. Qed.
Print Assumptions C86_boolean_refuted.
(** where a bound is 0, which is not described; *)
Theorem C86_zero_refuted :
  exists doc x, generate_xsd 8 r_oracle (lib_env 0) q_env q_decls q_schema = Ok doc /\ valid v_mean doc x /\ q_read "Stock" x = Err ValueError.
Proof. exists q_doc, (q_xml "stock" "-1"). split; [exact q_generated|]. split; [exact q_stock|]. vm_compute. reflexivity. Qed.
Print Assumptions C86_zero_refuted.
(** where the length of a string is bounded, *)
Theorem C86_length_refuted :
  exists doc x, generate_xsd 8 r_oracle (lib_env 0) q_env q_decls q_schema = Ok doc /\ valid v_mean doc x /\ q_read "Word" x = Err ValueError.
Proof. exists q_doc, (q_xml "word" "four"). split; [exact q_generated|]. split; [exact q_word|]. vm_compute. reflexivity. Qed.
Print Assumptions C86_length_refuted.
(** where there are fewer fraction digits than fractionDigits, *)
Theorem C86_fraction_refuted :
  exists doc x, generate_xsd 8 r_oracle (lib_env 0) q_env q_decls q_schema = Ok doc /\ valid v_mean doc x /\ q_read "Price" x = Err ValueError.
Proof. exists q_doc, (q_xml "price" "2.5"). split; [exact q_generated|]. split; [exact q_price|]. vm_compute. reflexivity. Qed.
Print Assumptions C86_fraction_refuted.
(** and where an integer is enumerated. *)
Theorem C86_enumeration_refuted :
  exists doc x, generate_xsd 8 r_oracle (lib_env 0) q_env q_decls q_schema = Ok doc /\ valid v_mean doc x /\ q_read "Grade" x = Err ValueError.
Proof. exists q_doc, (q_xml "grade" "3"). split; [exact q_generated|]. split; [exact q_grade|]. vm_compute. reflexivity. Qed.
Print Assumptions C86_enumeration_refuted.
(** Of a choice nothing is read. *)
Theorem C86_choice_refuted :
  exists doc x, generate_xsd 8 r_oracle (lib_env 0) q_env q_decls q_schema = Ok doc /\ valid v_mean doc x /\
  In (w_text "phone" "1234") (el_kids x) /\ q_read "Contact" x = Ok (VObj "Contact" (Some x) [("phone", VNone); ("mail", VNone)]).
Proof. exists q_doc, q_contact. split; [exact q_generated|]. split; [exact q_contact_valid|]. split; [now left|]. vm_compute. reflexivity. Qed.
Print Assumptions C86_choice_refuted.
