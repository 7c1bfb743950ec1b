(** Vocabulary for SOAP headers under the published schema. *)
From Coq Require Import String Ascii List ZArith Bool.
From Verif Require Import PyBase Xml PyVal XsdSimple XsdComplex XsdSchema PyHttp Soap Dispatch Client Py2Xsd
  SpecDispatch SpecClient.
Import ListNotations.
Open Scope string_scope.
Open Scope list_scope.

(** No header, or an object of a class with plain elements. *)
Definition plain_header (P : platform) (h : pyval) : Prop :=
  h = VNone \/ exists c xe fs d, h = VObj c xe fs /\ e_cls (pf_E P) c = Some d /\ Forall simple_field (cd_fields d).
(** The validator fails for invalid documents only in the ways of lxml. *)
Definition fails_as_lxml (P : platform) : Prop :=
  forall x, pf_valid P x = Ok tt \/ exists e, lxml_failure e /\ pf_valid P x = Err e.
(** The validator rejects elements that are not in the namespace of the schema. *)
Definition rejects_foreign (P : platform) (tns : string) : Prop :=
  forall x, (forall n, el_tag x <> clark tns n) -> exists m, pf_valid P x = Err (Exn EDocumentInvalid m).
