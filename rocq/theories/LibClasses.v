(** The classes with which the library itself reads and writes XSD and WSDL
    documents (/repo/soapfish/xsdspec.py:6-182, /repo/soapfish/wsdl11.py,
    /repo/soapfish/wsdl12.py).  They are ComplexType subclasses like those of a
    user.  Fields are listed in the order of [_meta.all]: by creation, so that in
    wsdl12 the inherited fields that are not redefined come first.

    A class is named after its module.  Methods other than those of ComplexType
    (to_python, Message.part, get_element_by_name) are not part of the
    descriptors. *)
From Coq Require Import String Ascii List ZArith NArith Bool.
From Verif Require Import PyBase Xml PyVal XsdSimple XsdComplex PyHttp Soap.
Import ListNotations.
Open Scope string_scope.
Open Scope list_scope.

(** /repo/soapfish/namespaces.py:7, 13, 27 *)
Definition ns_xsd : string := "http://www.w3.org/2001/XMLSchema".
Definition ns_wsdl : string := "http://schemas.xmlsoap.org/wsdl/".
Definition ns_soap_http : string := "http://schemas.xmlsoap.org/soap/http".

Definition ty_string : ftype := TSimple (SString "String" no_sfacets).
Definition ty_uri : ftype := TSimple (SString "AnyURI" no_sfacets).
Definition ty_qname : ftype := TSimple (SString "QName" no_sfacets).
Definition ty_nmtoken : ftype := TSimple (SString "NMTOKEN" no_sfacets).
Definition ty_nmtokens : ftype := TSimple (SString "NMTOKENS" no_sfacets).
Definition ty_boolean : ftype := TSimple SBoolean.
Definition ty_integer : ftype := TSimple (SInteger CInteger no_dfacets).
(** [String(enumeration=l)] *)
Definition ty_enum (l : list string) : ftype :=
  TSimple (SString "String" {| sf_enum := Some l; sf_pattern := None; sf_length := None; sf_minLength := None;
                               sf_maxLength := None; sf_ws := None |}).

(** [Attribute(t)] and [Attribute(t, use=Use.OPTIONAL)] *)
Definition fa (name : string) (t : ftype) : field := mkField name KAttribute t None (Some 1%Z) ONone false VNone None.
Definition fo (name : string) (t : ftype) : field := mkField name KAttribute t None (Some 0%Z) ONone false VNone None.
(** [Attribute(t, use=Use.OPTIONAL, default=v)] *)
Definition fd (name : string) (t : ftype) (v : string) : field :=
  mkField name KAttribute t None (Some 0%Z) ONone false (VStr v) None.
(** [Element(t, minOccurs=m, namespace=ns)] *)
Definition fe (name : string) (t : ftype) (m : Z) (ns : option string) : field :=
  mkField name KElement t None (Some m) ONone false VNone ns.
(** [ListElement(t, tag, minOccurs=m, namespace=ns)] *)
Definition fl (name tag : string) (t : ftype) (m : option Z) (ns : option string) : field :=
  mkField name KList t (Some tag) m ONone false VNone ns.

(** ** xsdspec.py *)
Definition xs (c : string) : string := ("xsdspec." ++ c)%string.
Definition xs_t (c : string) : ftype := TComplex (xs c).
Definition xs_si : sinfo := {| si_tns := Some ns_xsd; si_efd := qualified |}.

(** lines 6-162 *)
Definition xs_fields : list (string * list field) :=
  [ ("Enumeration", [fa "value" ty_string]);
    ("Pattern", [fa "value" ty_string]);
    ("RestrictionValue", [fa "value" ty_string]);
    ("Restriction",
       [fa "base" ty_string; fl "enumerations" "enumeration" (xs_t "Enumeration") None None;
        fe "pattern" (xs_t "Pattern") 1 None; fe "minInclusive" (xs_t "RestrictionValue") 1 None;
        fe "minExclusive" (xs_t "RestrictionValue") 1 None; fe "maxExclusive" (xs_t "RestrictionValue") 1 None;
        fe "maxInclusive" (xs_t "RestrictionValue") 1 None; fe "fractionDigits" (xs_t "RestrictionValue") 1 None;
        fe "totalDigits" (xs_t "RestrictionValue") 1 None; fe "length" (xs_t "RestrictionValue") 1 None;
        fe "minLength" (xs_t "RestrictionValue") 1 None; fe "maxLength" (xs_t "RestrictionValue") 1 None;
        fe "whiteSpace" (xs_t "RestrictionValue") 1 None]);
    ("List", []);
    ("SimpleType", [fo "name" ty_string; fe "restriction" (xs_t "Restriction") 0 None; fe "list" (xs_t "List") 0 None]);
    ("Element",
       [fo "name" ty_string; fo "type" ty_string; fo "ref" ty_string; fo "minOccurs" ty_integer;
        fo "maxOccurs" (TSimple SMaxOccurs); fo "nillable" ty_boolean; fo "substitutionGroup" ty_string;
        fe "simpleType" (xs_t "SimpleType") 0 None; fe "complexType" (xs_t "XSDComplexType") 1 None]);
    ("Sequence", [fl "elements" "element" (xs_t "Element") None None]);
    ("Attribute",
       [fa "name" ty_string; fa "ref" ty_string; fa "type" ty_string; fa "use" ty_string;
        fe "simpleType" (xs_t "SimpleType") 0 None]);
    ("AttributeGroup", [fa "name" ty_string; fl "attributes" "attribute" (xs_t "Attribute") None None]);
    ("AttributeGroupReference", [fa "ref" ty_string]);
    ("Extension",
       [fa "base" ty_string; fe "sequence" (xs_t "Sequence") 1 None; fl "attributes" "attribute" (xs_t "Attribute") None None;
        fl "attributeGroups" "attributeGroup" (xs_t "AttributeGroupReference") None None]);
    ("ComplexContent",
       [fa "mixed" ty_boolean; fe "extension" (xs_t "Extension") 1 None; fe "restriction" (xs_t "Extension") 1 None]);
    ("XSDComplexType",
       [fo "name" ty_string; fe "sequence" (xs_t "Sequence") 1 None; fe "choice" (xs_t "Sequence") 1 None;
        fe "all" (xs_t "Sequence") 1 None; fe "complexContent" (xs_t "ComplexContent") 1 None;
        fl "attributes" "attribute" (xs_t "Attribute") None None;
        fl "attributeGroups" "attributeGroup" (xs_t "AttributeGroupReference") None None]);
    ("Group", [fa "name" ty_string; fe "sequence" (xs_t "Sequence") 1 None]);
    ("Import", [fo "schemaLocation" ty_string; fo "namespace" ty_string]);
    ("Include", [fa "schemaLocation" ty_string]);
    ("Schema",
       [fa "targetNamespace" ty_string;
        fd "elementFormDefault" (ty_enum ["qualified"; "unqualified"]) "unqualified";
        fl "imports" "import" (xs_t "Import") None None; fl "includes" "include" (xs_t "Include") None None;
        fl "simpleTypes" "simpleType" (xs_t "SimpleType") None None; fl "groups" "group" (xs_t "Group") None None;
        fl "attributeGroups" "attributeGroup" (xs_t "AttributeGroup") None None;
        fl "complexTypes" "complexType" (xs_t "XSDComplexType") None None;
        fl "elements" "element" (xs_t "Element") None None]) ].
(** lines 171-182: all but Import and Include are in the SCHEMA. *)
Definition xs_classes : list (string * classdef) :=
  map (fun p => (xs (fst p), mkClass [xs (fst p)] CKPlain (snd p) ISequence
                   (if str_in (fst p) ["Import"; "Include"] then None else Some xs_si))) xs_fields.

(** ** wsdl11.py and wsdl12.py *)
Definition wmod (v : soapver) : string := match v with V11 => "wsdl11." | V12 => "wsdl12." end.
Definition wn (v : soapver) (c : string) : string := (wmod v ++ c)%string.
Definition w_t (v : soapver) (c : string) : ftype := TComplex (wn v c).
Definition w_si : sinfo := {| si_tns := Some ns_wsdl; si_efd := qualified |}.
Definition doc_field : field := fe "documentation" ty_string 0 None.

Definition style_type : ftype := ty_enum ["document"; "rpc"].
Definition use_type : ftype := ty_enum ["encoded"; "literal"].
Definition soap_header_fields : list field :=
  [fa "message" ty_qname; fa "part" ty_nmtoken; fa "use" use_type; fo "namespace" ty_uri; fo "encodingStyle" ty_uri].

(** wsdl11.py:13-60, wsdl12.py:7-32: the SOAP extension elements; they are in no
    SCHEMA. *)
Definition wsdl_soap_fields (v : soapver) : list (string * list field) :=
  [ ("SOAP_Binding", [fd "style" style_type "document"; fa "transport" ty_uri]);
    ("SOAP_Operation", [fo "soapAction" ty_uri; fo "style" style_type]
                       ++ match v with V11 => [] | V12 => [fo "soapActionRequired" ty_boolean] end);
    ("SOAP_HeaderFault", soap_header_fields);
    ("SOAP_Header", soap_header_fields ++ [fl "headerfaults" "headerfault" (w_t v "SOAP_HeaderFault") (Some 0%Z) (Some (binding_ns v))]);
    ("SOAP_Body", [fo "parts" ty_nmtokens; fa "use" use_type; fo "namespace" ty_uri; fo "encodingStyle" ty_uri]);
    ("SOAP_Fault", [fa "name" ty_nmtoken; fa "use" use_type; fo "namespace" ty_uri; fo "encodingStyle" ty_uri]);
    ("SOAP_Address", [fa "location" ty_uri]) ].

(** In wsdl11 [documentation] was created where it stands, in wsdl12 it is
    inherited and so was created before the redefined fields. *)
Definition with_doc (v : soapver) (own before : list field) (after : list field) : list field :=
  match v with
  | V11 => own ++ before ++ doc_field :: after
  | V12 => own ++ doc_field :: before ++ after
  end.

(** Input and Output: wsdl11.py:95-112, wsdl12.py:57-66. *)
Definition io_fields (v : soapver) : list field :=
  [fo "name" ty_string; fo "message" ty_string; doc_field;
   fe "body" (w_t v "SOAP_Body") 1 (Some (binding_ns v));
   fl "headers" "header" (w_t v "SOAP_Header") (Some 0%Z) (Some (binding_ns v))].

(** wsdl11.py:66-176, wsdl12.py:38-109 *)
Definition wsdl_fields (v : soapver) : list (string * list field) :=
  [ ("Types", [fl "schemas" "schema" (xs_t "Schema") None (Some ns_xsd); doc_field]);
    ("Part", [fa "name" ty_string; fo "element" ty_string; fo "type" ty_string]);
    ("Message", with_doc v [fa "name" ty_string] [fl "parts" "part" (w_t v "Part") (Some 0%Z) None] []);
    ("Import", [fa "namespace" ty_string; fa "location" ty_string]);
    ("Input", io_fields v);
    ("Output", io_fields v);
    ("Fault", [fa "name" ty_string; fo "message" ty_string; doc_field;
               fe "fault" (w_t v "SOAP_Fault") 1 (Some (binding_ns v))]);
    ("Operation", with_doc v [fa "name" ty_string]
       [fe "input" (w_t v "Input") 0 None; fe "output" (w_t v "Output") 0 None;
        fl "faults" "fault" (w_t v "Fault") (Some 0%Z) None]
       [fe "operation" (w_t v "SOAP_Operation") 0 (Some (binding_ns v))]);
    ("PortType", with_doc v [fa "name" ty_string] [fl "operations" "operation" (w_t v "Operation") (Some 0%Z) None] []);
    ("Binding", with_doc v [fa "name" ty_string; fa "type" ty_string]
       [fl "operations" "operation" (w_t v "Operation") (Some 0%Z) None]
       [fe "binding" (w_t v "SOAP_Binding") 1 (Some (binding_ns v))]);
    ("Port", [fa "name" ty_string; fa "binding" ty_string; doc_field;
              fe "address" (w_t v "SOAP_Address") 1 (Some (binding_ns v))]);
    ("Service", with_doc v [fa "name" ty_string] [fl "ports" "port" (w_t v "Port") (Some 0%Z) None] []);
    ("Definitions", with_doc v [fo "name" ty_string; fo "targetNamespace" ty_string]
       [fl "imports" "import" (w_t v "Import") (Some 0%Z) None; fe "types" (w_t v "Types") 0 None;
        fl "messages" "message" (w_t v "Message") (Some 0%Z) None;
        fl "portTypes" "portType" (w_t v "PortType") (Some 0%Z) None;
        fl "bindings" "binding" (w_t v "Binding") (Some 0%Z) None;
        fl "services" "service" (w_t v "Service") (Some 0%Z) None] []) ].

(** A wsdl12 class inherits from the wsdl11 class of the same name. *)
Definition wsdl_mro (v : soapver) (c : string) : list string :=
  match v with V11 => [wn V11 c] | V12 => [wn V12 c; wn V11 c] end.
Definition wsdl_classes (v : soapver) : list (string * classdef) :=
  map (fun p => (wn v (fst p), mkClass (wsdl_mro v (fst p)) CKPlain (snd p) ISequence None)) (wsdl_soap_fields v) ++
  map (fun p => (wn v (fst p), mkClass (wsdl_mro v (fst p)) CKPlain (snd p) ISequence (Some w_si))) (wsdl_fields v).

(** The environment of the library's own classes; [lim] is the recursion limit
    beyond the few calls needed to instantiate them. *)
Definition lib_classes : list (string * classdef) := xs_classes ++ wsdl_classes V11 ++ wsdl_classes V12.
Definition lib_env (lim : nat) : env := mkEnv (fun c => assoc c lib_classes) (10 + lim).
