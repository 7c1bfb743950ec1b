(** C97, C98: documents, and validation by the [schema] argument. *)
From Coq Require Import String Ascii List ZArith NArith Bool.
From Verif Require Import PyBase PyRe Xml PyVal XsdSimple XsdComplex XsdMeta ExEnv ExSoap LibClasses Py2Xsd Texts
  SpecXsd SpecParse SpecRound SpecTotal SpecValid SpecGiven SpecRead SpecMeta SpecTexts
  PfClient3 PfTexts PfMeta3 ExValid ExRead ExContract ExTexts.
Import ListNotations.
Open Scope nat_scope.
Open Scope string_scope.
Open Scope list_scope.

(** ** C97. Documents *)
(** A Document without NAMESPACE is written exactly as its root writes itself
    under the name of the attribute. *)
Theorem C97_text :
  forall n O E tostring c f ct xe fs xe' fs', root_of E c f -> f_type f = TComplex ct -> f_ns f = None ->
  assoc (f_name f) fs = Some (VObj ct xe' fs') ->
  document_render n O E tostring None (VObj c xe fs) = to_xml n O E tostring (VObj ct xe' fs') (f_name f) None None None.
Proof. exact document_text. Qed.
Print Assumptions C97_text.
(** So the class of the root reads it back. *)
Theorem C97_round :
  forall n O L E G XMLSchema fromstring tostring P c f ct xe fs v, root_of E c f -> f_type f = TComplex ct -> f_ns f = None ->
  rt_classes O E P -> P ct -> rt_typed O E (TComplex ct) v -> ncname_ok (f_name f) = true -> vdepth v <= n ->
  assoc (f_name f) fs = Some v -> (forall x, xml_of n O E v (f_name f) None None = Ok x -> survives fromstring tostring x) ->
  exists text v', document_render n O E tostring None (VObj c xe fs) = Ok text /\
    parsexml n O L E G fromstring XMLSchema ct text None = Ok v' /\ erase v' = erase v.
Proof. exact document_round. Qed.
Print Assumptions C97_round.
(** The Document itself does not.  Whatever texts its parsexml is called with, one
    after the other, each call returns None or raises.  What the last readable
    text says becomes an attribute of the class. *)
Theorem C97_history :
  forall n O E fromstring c f ct, root_of E c f -> f_type f = TComplex ct ->
  forall texts st st' rs, document_calls n O E fromstring c st texts = (st', rs) ->
  Forall (fun r => r = Ok VNone \/ exists e, r = Err e) rs /\
  ((st' = st /\ forall t v, In t texts -> ~ read_as n O E fromstring ct t v) \/
   exists before t after v, texts = before ++ t :: after /\ st' = Some v /\ read_as n O E fromstring ct t v /\
     forall t' v', In t' after -> ~ read_as n O E fromstring ct t' v').
Proof. exact document_history. Qed.
Print Assumptions C97_history.
(** That leaves the fields of all classes as they are, *)
Theorem C97_kept :
  forall w c name c', class_fields (class_setattr w c name) c' = class_fields w c' /\ lineage (class_setattr w c name) c' = lineage w c'.
Proof. exact class_kept. Qed.
Print Assumptions C97_kept.
(** but a class derived from it afterwards has no field of that name, *)
Theorem C97_derived_refuted :
  forall es w c name d dict rest w2, exec_all empty_world es = Ok w -> declares w c name (ADesc d) ->
  exec (class_setattr w c name) (DefClass dict (c :: rest)) = Ok w2 -> assoc name dict = None ->
  Forall (fun f => f_name f <> name) (class_fields w2 (length (w_classes w))).
Proof. exact subclass_loses. Qed.
Print Assumptions C97_derived_refuted.
(** which it has if it is derived before. *)
Theorem C97_derived :
  forall w c name d dict rest w2, declares w c name (ADesc d) -> exec w (DefClass dict (c :: rest)) = Ok w2 -> assoc name dict = None ->
  has_field w2 (length (w_classes w)) name d.
Proof. exact subclass_has. Qed.
Print Assumptions C97_derived.
(** NAMESPACE, the namespace of the Element and its tagname do not appear in the
    tag of the root. *)
Theorem C97_root_refuted :
  forall n O E tostring c f ns xe fs text, root_of E c f -> ncname_ok (f_name f) = true ->
  document_render n O E tostring ns (VObj c xe fs) = Ok text -> exists x, text = tostring x /\ el_tag x = f_name f.
Proof. exact document_root. Qed.
Print Assumptions C97_root_refuted.
Example C97_nonvacuous :
  (root_of d_env "Trip" d_leg /\ f_type d_leg = TComplex "Leg" /\ f_ns d_leg = None /\ ncname_ok (f_name d_leg) = true /\
   rt_classes ex_oracle d_env (fun c => c = "Leg") /\ rt_typed ex_oracle d_env (TComplex "Leg") d_value /\ vdepth d_value <= 4 /\
   assoc "leg" d_trip = Some d_value /\ (forall x, xml_of 4 ex_oracle d_env d_value "leg" None None = Ok x -> survives d_fromstring show x)) /\
  (document_render 4 ex_oracle d_env show None (VObj "Trip" None d_trip) = Ok (show d_xml) /\
   document_render 4 ex_oracle d_env show (Some "urn:air") (VObj "Trip" None d_trip) = Ok (show d_xml)) /\
  (exists v, document_calls 4 ex_oracle d_env d_fromstring "Trip" None [show d_xml; "<"; show (Elem "leg" [] [Elem "seats" [] [Text "many"]])] =
     (Some v, [Ok VNone; Err (Exn EXMLSyntaxError ""); Err ValueError]) /\ erase v = d_value) /\
  exists w2, exec_all empty_world ex_program = Ok ex_world /\ declares ex_world 0 "zulu" (ADesc 0) /\
    exec (class_setattr ex_world 0 "zulu") (DefClass [] [0]) = Ok w2 /\ map f_name (class_fields w2 2) = ["alpha"; "mike"] /\
    res_map (fun w => map f_name (class_fields w 2)) (exec ex_world (DefClass [] [0])) = Ok ["zulu"; "alpha"; "mike"].
Proof.
  split; [|split; [|split]].
  - split; [exact d_root|]. do 3 (split; [reflexivity|]). split; [exact d_classes|]. split; [exact d_typed|]. split; [vm_compute; repeat constructor|]. split; [reflexivity|exact d_survives].
  - split; vm_compute; reflexivity.
  - eexists. split; vm_compute; reflexivity.
  - eexists. split; [exact ex_world_runs|]. split; [eexists; split; reflexivity|]. split; [vm_compute; reflexivity|]. split; vm_compute; reflexivity.
Qed.

(** ** C98. Validation *)
(** What is read or written with a schema is what is read or written without,
    and it is valid. *)
Theorem C98_read_only :
  forall n O L E G fromstring XMLSchema mean d check c text v, accepts_only mean d check ->
  parsexml n O L E G fromstring XMLSchema c text (Some (Compiled check)) = Ok v ->
  parsexml n O L E G fromstring XMLSchema c text None = Ok v /\ exists x, fromstring text = Ok x /\ valid mean d x.
Proof. exact checked_only. Qed.
Print Assumptions C98_read_only.
Theorem C98_write_only :
  forall n O E tostring mean d check v tag ns efd text, accepts_only mean d check ->
  to_xml n O E tostring v tag ns efd (Some (Compiled check)) = Ok text ->
  to_xml n O E tostring v tag ns efd None = Ok text /\ exists x, text = tostring x /\ valid mean d x.
Proof. exact written_only. Qed.
Print Assumptions C98_write_only.
(** A valid text is read as without the schema. *)
Theorem C98_read_all :
  forall n O L E G fromstring XMLSchema mean d check c text x, accepts_all mean d check -> fromstring text = Ok x -> valid mean d x ->
  parsexml n O L E G fromstring XMLSchema c text (Some (Compiled check)) = parsexml n O L E G fromstring XMLSchema c text None.
Proof. exact checked_all. Qed.
Print Assumptions C98_read_all.
(** A Schema object stands for the XSD document generated from it. *)
Theorem C98_described :
  forall n O L E G fromstring XMLSchema s d check c text, generate_xsd n O L E G s = Ok d -> XMLSchema d = Ok check ->
  parsexml n O L E G fromstring XMLSchema c text (Some (Described s)) = parsexml n O L E G fromstring XMLSchema c text (Some (Compiled check)).
Proof. exact described_checked. Qed.
Print Assumptions C98_described.
(** A complete object is written and read back under its own schema. *)
Theorem C98_round :
  forall O lim E G j s mean fromstring tostring XMLSchema P c name el v d check,
  schema_describable O E G s -> schema_ok mean E G s -> rt_classes O E P -> P c -> rt_typed O E (TComplex c) v -> complete O E (TComplex c) v ->
  In (name, el) (gs_elements s) -> ge_type el = TComplex c -> ncname_ok name = true -> ns_good (Some (gs_tns s)) -> vdepth v <= 8 + j ->
  generate_xsd (8 + j) O (lib_env lim) E G s = Ok d -> XMLSchema d = Ok check -> accepts_all mean d check ->
  (forall x, xml_of (8 + j) O E v name (Some (gs_tns s)) (Some (gs_efd s)) = Ok x -> survives fromstring tostring x) ->
  exists text v', to_xml (8 + j) O E tostring v name (Some (gs_tns s)) (Some (gs_efd s)) (Some (Compiled check)) = Ok text /\
    parsexml (8 + j) O (lib_env lim) E G fromstring XMLSchema c text (Some (Described s)) = Ok v' /\ erase v' = erase v.
Proof. exact schema_round. Qed.
Print Assumptions C98_round.
(** Any valid text is read, and as it says. *)
Theorem C98_reads :
  forall O lim E G j s mean fromstring XMLSchema name el c x text d check,
  reads_numbers O -> schema_describable O E G s -> schema_ok mean E G s -> schema_readable O E G s ->
  In (name, el) (gs_elements s) -> ge_type el = TComplex c -> el_tag x = clark (gs_tns s) name -> spelled E s (TComplex c) x -> height x < 8 + j ->
  generate_xsd (8 + j) O (lib_env lim) E G s = Ok d -> XMLSchema d = Ok check -> accepts_all mean d check -> fromstring text = Ok x -> valid mean d x ->
  exists v, parsexml (8 + j) O (lib_env lim) E G fromstring XMLSchema c text (Some (Described s)) = Ok v /\ says O E s (TComplex c) x v.
Proof. exact schema_reads. Qed.
Print Assumptions C98_reads.
(** xml does not take the Schema object that parsexml takes. *)
Theorem C98_object_refuted :
  forall n O E tostring v tag ns efd s text, to_xml n O E tostring v tag ns efd (Some (Described s)) <> Ok text.
Proof. exact written_schema. Qed.
Print Assumptions C98_object_refuted.
Example C98_nonvacuous :
  (schema_describable r_oracle call_env c_decls c_schema /\ schema_ok v_mean call_env c_decls c_schema /\ rt_classes r_oracle call_env call_classes /\
   rt_typed r_oracle call_env (TComplex "EchoRequest") (request_of "hi") /\ complete r_oracle call_env (TComplex "EchoRequest") (request_of "hi") /\
   generate_xsd 10 r_oracle (lib_env 0) call_env c_decls c_schema = Ok t_doc /\ t_schema t_doc = Ok t_check /\ accepts_all v_mean t_doc t_check /\
   forall x, xml_of 10 r_oracle call_env (request_of "hi") "echoRequest" (Some "urn:echo") (Some "qualified") = Ok x -> survives t_fromstring show x) /\
  (reads_numbers r_oracle /\ schema_readable r_oracle call_env c_decls c_schema /\ spelled call_env c_schema (TComplex "EchoRequest") (c_xml "echoRequest" "hi") /\
   t_fromstring (show (c_xml "echoRequest" "hi")) = Ok (c_xml "echoRequest" "hi") /\ valid v_mean t_doc (c_xml "echoRequest" "hi")) /\
  (accepts_only v_mean t_doc t_one /\ to_xml 10 r_oracle call_env show (request_of "hi") "echoRequest" (Some "urn:echo") (Some "qualified") (Some (Compiled t_one)) = Ok (show (c_xml "echoRequest" "hi")) /\
   exists v, parsexml 10 r_oracle (lib_env 0) call_env c_decls t_fromstring t_schema "EchoRequest" (show (c_xml "echoRequest" "hi")) (Some (Compiled t_one)) = Ok v /\ erase v = request_of "hi") /\
  parsexml 10 r_oracle (lib_env 0) call_env c_decls t_fromstring t_schema "EchoRequest" (show (c_xml "other" "hi")) (Some (Compiled t_check)) = Err (Exn EXMLSyntaxError "") /\
  exists v, parsexml 10 r_oracle (lib_env 0) call_env c_decls t_fromstring t_schema "EchoRequest" (show (c_xml "other" "hi")) None = Ok v.
Proof.
  split; [|split; [|split; [|split]]].
  - split; [exact c_describable|]. split; [exact c_schema_ok|]. split; [exact c_good|]. split; [exact (proj1 (proj2 (proj2 (proj1 t_proper))))|]. split; [exact (proj2 t_proper)|].
    split; [exact t_generated|]. split; [reflexivity|]. split; [exact t_accepts|exact t_survives].
  - split; [exact r_numbers|]. split; [exact c_schema_readable|]. split; [apply c_accepts|]. split; [vm_compute; reflexivity|exact c_valid].
  - split; [exact t_only|]. split; [vm_compute; reflexivity|]. eexists. split; vm_compute; reflexivity.
  - vm_compute. reflexivity.
  - eexists. vm_compute. reflexivity.
Qed.
