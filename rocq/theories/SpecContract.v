(** Vocabulary for the published schema as the contract between client and server. *)
From Coq Require Import String Ascii List ZArith Bool.
From Verif Require Import PyBase PyRe Xml PyVal XsdSimple XsdComplex XsdSchema PyHttp Soap Dispatch Client LibClasses Py2Xsd Serve
  SpecXsd SpecRound SpecSoap SpecDispatch SpecClient SpecValid SpecGiven.
Import ListNotations.
Open Scope string_scope.
Open Scope list_scope.

(** A validator accepts what is valid against the document it is made from. *)
Definition accepts_valid (mean : string -> re) (compile : (string -> res xdocument) -> xdocument -> res (node -> res unit)) : Prop :=
  forall r doc check, compile r doc = Ok check -> forall x, valid mean doc x -> check x = Ok tt.

(** The dispatcher [D] was made for the service [F], whose schema is [s], and the
    platform runs it with the validator made then.  The schema describes its
    classes (C85). *)
Record contract {W} (P : platform) (mean : string -> re) (G : decls) (parts : nat -> gschema) (F : full_service W) (s : gschema) (D : dispatcher W) : Prop := {
  co_platform : soap_platform P;
  co_schema : exists root, sv_schemas (fs_service F) = [root] /\ s = schema_object (pf_G P) parts root;
  co_describable : schema_describable (pf_O P) (pf_E P) G s;
  co_ok : schema_ok mean (pf_E P) G s;
  co_foreign : gs_tns s <> "http://www.w3.org/2005/08/addressing";
  co_made : exists j lim show compile wsdl xsds strict, accepts_valid mean compile /\
    new_dispatcher (8 + j) (pf_O P) (lib_env lim) (pf_E P) G (pf_G P) parts show compile F None None wsdl xsds strict = Ok (D, pf_valid P) }.

(** The class [c] of the schema [s] is the type of its element [tag]. *)
Definition element_of (E : env) (s : gschema) (tag c : string) : Prop :=
  (exists el, In (tag, el) (gs_elements s) /\ ge_type el = TComplex c) /\
  exists d si, e_cls E c = Some d /\ cd_schema d = Some si /\ si_efd si = gs_efd s.
(** An object of class [c] that can be sent and has all that is required. *)
Definition proper (P : platform) (Q : string -> Prop) (c : string) (v : pyval) : Prop :=
  message P Q c v /\ complete (pf_O P) (pf_E P) (TComplex c) v.
