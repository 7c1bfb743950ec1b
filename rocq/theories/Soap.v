(** SOAP 1.1 and 1.2: envelopes, faults, action headers
    (/repo/soapfish/soap11.py, /repo/soapfish/soap12.py,
    /repo/soapfish/xsd.py:1187-1193, /repo/soapfish/soap.py:17-36). *)
From Coq Require Import String Ascii List ZArith NArith Bool.
From Verif Require Import PyBase PyRe Xml PyVal XsdSimple XsdComplex PyHttp.
Import ListNotations.
Open Scope string_scope.
Open Scope list_scope.

Inductive soapver := V11 | V12.

(** /repo/soapfish/namespaces.py:25-34 *)
Definition ns_soap11 : string := "http://schemas.xmlsoap.org/soap/envelope/".
Definition ns_soap12 : string := "http://www.w3.org/2003/05/soap-envelope".
Definition ns_wsdl_soap : string := "http://schemas.xmlsoap.org/wsdl/soap/".
Definition ns_wsdl_soap12 : string := "http://schemas.xmlsoap.org/wsdl/soap12/".
Definition ns_wsa : string := "http://www.w3.org/2005/08/addressing".

(** ENVELOPE_NAMESPACE, BINDING_NAMESPACE, CONTENT_TYPE, NAME: soap11.py:5-8,
    soap12.py:5-8. *)
Definition envelope_ns (v : soapver) : string := match v with V11 => ns_soap11 | V12 => ns_soap12 end.
Definition binding_ns (v : soapver) : string := match v with V11 => ns_wsdl_soap | V12 => ns_wsdl_soap12 end.
Definition content_type (v : soapver) : string :=
  match v with V11 => "text/xml" | V12 => "application/soap+xml" end.
Definition soap_name (v : soapver) : string := match v with V11 => "soap11" | V12 => "soap12" end.

(** Code.CLIENT, Code.SERVER: soap11.py:33-35, soap12.py:33-35. *)
Definition code_client (v : soapver) : string := match v with V11 => "Client" | V12 => "ns0:Sender" end.
Definition code_server (v : soapver) : string := match v with V11 => "Server" | V12 => "ns0:Receiver" end.

(** ** The classes *)

Definition string_type : ftype := TSimple (SString "String" no_sfacets).
Definition s_elem (name : string) (t : ftype) (mn : Z) (nillable : bool) (ns : option string) : field :=
  mkField name KElement t None (Some mn) ONone nillable VNone ns.
Definition env_si (v : soapver) : sinfo := {| si_tns := Some (envelope_ns v); si_efd := qualified |}.

Definition cn (v : soapver) (c : string) : string := (soap_name v ++ "." ++ c)%string.
Definition header_cls (v : soapver) : string := cn v "Header".
Definition body_cls (v : soapver) : string := cn v "Body".
Definition fault_cls (v : soapver) : string := cn v "Fault".
Definition envelope_cls (v : soapver) : string := cn v "Envelope".

(** [message = ClassNamedElement(NamedType, minOccurs=0)] *)
Definition message_field : field :=
  mkField "message" KClassNamed (TComplex "NamedType") None (Some 0%Z) ONone false VNone None.
Definition body_fields (v : soapver) : list field :=
  [message_field; s_elem "Fault" (TComplex (fault_cls v)) 0 false None].
(** Envelope: soap11.py:66-68, soap12.py:58-60. *)
Definition envelope_fields (v : soapver) : list field :=
  [s_elem "Header" (TComplex (header_cls v)) 1 true None;
   s_elem "Body" (TComplex (body_cls v)) 1 false None].

Definition soap_classes : list (string * classdef) :=
  [ (* xsd.ComplexType, xsd.NamedType (xsd.py:1187-1193) *)
    ("ComplexType", mkClass ["ComplexType"] CKPlain [] ISequence None);
    ("NamedType", mkClass ["NamedType"; "ComplexType"] CKPlain
       [s_elem "name" string_type 1 false None; s_elem "value" (TComplex "ComplexType") 1 false None] ISequence None);
    (* soap11.py:38-88 *)
    ("soap11.Header", mkClass ["soap11.Header"; "ComplexType"] CKHeader [] ISequence (Some (env_si V11)));
    ("soap11.Fault", mkClass ["soap11.Fault"; "ComplexType"] CKPlain
       [s_elem "faultcode" string_type 1 false (Some ""); s_elem "faultstring" string_type 1 false (Some "");
        s_elem "faultactor" string_type 0 false (Some "")] ISequence (Some (env_si V11)));
    ("soap11.Body", mkClass ["soap11.Body"; "ComplexType"] CKPlain (body_fields V11) ISequence (Some (env_si V11)));
    ("soap11.Envelope", mkClass ["soap11.Envelope"; "ComplexType"] CKPlain (envelope_fields V11) ISequence (Some (env_si V11)));
    (* soap12.py:29-85 *)
    ("soap12.Header", mkClass ["soap12.Header"; "soap11.Header"; "ComplexType"] CKHeader [] ISequence (Some (env_si V12)));
    ("soap12.Code", mkClass ["soap12.Code"; "ComplexType"] CKPlain
       [s_elem "Value" string_type 1 false None] ISequence (Some (env_si V12)));
    ("soap12.Reason", mkClass ["soap12.Reason"; "ComplexType"] CKPlain
       [s_elem "Text" (TSimple (SLang no_sfacets)) 1 false None] ISequence (Some (env_si V12)));
    ("soap12.Fault", mkClass ["soap12.Fault"; "ComplexType"] CKPlain
       [s_elem "Code" (TComplex "soap12.Code") 1 false None; s_elem "Reason" (TComplex "soap12.Reason") 1 false None;
        s_elem "Role" string_type 0 false None] ISequence (Some (env_si V12)));
    ("soap12.Body", mkClass ["soap12.Body"; "soap11.Body"; "ComplexType"] CKPlain (body_fields V12) ISequence (Some (env_si V12)));
    ("soap12.Envelope", mkClass ["soap12.Envelope"; "ComplexType"] CKPlain (envelope_fields V12) ISequence (Some (env_si V12))) ].

(** The SOAP classes together with the classes [U] of the user; [lim] is the
    recursion limit beyond the handful of calls the SOAP classes need. *)
Definition soap_env (U : string -> option classdef) (lim : nat) : env :=
  mkEnv (fun c => match assoc c soap_classes with Some d => Some d | None => U c end) (10 + lim).

(** [obj.name = v] *)
Definition py_set (O : oracle) (E : env) (obj : pyval) (name : string) (v : pyval) : res pyval :=
  match obj with
  | VObj c xe fs => d <- get_class E c ;; fs' <- setattr O E (cd_fields d) fs name v ;; Ok (VObj c xe fs')
  | _ => Err AttributeError
  end.
(** [obj.name] *)
Definition py_get (obj : pyval) (name : string) : res pyval :=
  p <- obj_parts obj ;; getattr (snd p) name.
(** [obj._xmlelement] *)
Definition py_xmlelement (obj : pyval) : res node :=
  match obj with VObj _ (Some x) _ => Ok x | _ => Err AttributeError end.

(** ** Building envelopes *)

(** The common part: an Envelope with the given header and body. *)
Definition new_envelope (O : oracle) (E : env) (v : soapver) (header : pyval) : res pyval :=
  e <- construct O E (envelope_cls v) [] ;;
  match header with
  | VNone => Ok e
  | _ => py_set O E e "Header" header
  end.
(** [envelope.xml('Envelope', namespace=ENVELOPE_NAMESPACE, elementFormDefault=QUALIFIED)] *)
Definition envelope_xml (n : nat) (O : oracle) (E : env) (v : soapver) (e : pyval) : res node :=
  xml_of n O E e "Envelope" (Some (envelope_ns v)) (Some qualified).

(** Envelope.response, soap11.py:70-78, soap12.py:62-70.  [envelope.Body] is the
    same object as the Body that is modified after it has been assigned. *)
Definition envelope_response (n : nat) (O : oracle) (E : env) (v : soapver) (tagname : string)
    (return_object header : pyval) : res node :=
  e1 <- new_envelope O E v header ;;
  b0 <- construct O E (body_cls v) [] ;;
  e2 <- py_set O E e1 "Body" b0 ;;
  m <- construct O E "NamedType" [("name", VStr tagname); ("value", return_object)] ;;
  b1 <- py_set O E b0 "message" m ;;
  e3 <- py_set O E e2 "Body" b1 ;;
  envelope_xml n O E v e3.

Definition opt_str (o : option string) : pyval := match o with Some s => VStr s | None => VNone end.

(** The Fault object: soap11.py:86, soap12.py:78-80. *)
Definition make_fault (O : oracle) (E : env) (v : soapver) (code message : string) (actor : option string) : res pyval :=
  match v with
  | V11 => construct O E "soap11.Fault" [("faultcode", VStr code); ("faultstring", VStr message); ("faultactor", opt_str actor)]
  | V12 =>
      c <- construct O E "soap12.Code" [("Value", VStr code)] ;;
      r <- construct O E "soap12.Reason" [("Text", VStr message)] ;;
      construct O E "soap12.Fault" [("Code", c); ("Reason", r); ("Role", opt_str actor)]
  end.
(** Envelope.error_response and get_error_response, soap11.py:25-26 80-88,
    soap12.py:21-22 72-82. *)
Definition error_response (n : nat) (O : oracle) (E : env) (v : soapver) (code message : string)
    (header : pyval) (actor : option string) : res node :=
  e1 <- new_envelope O E v header ;;
  b0 <- construct O E (body_cls v) [] ;;
  e2 <- py_set O E e1 "Body" b0 ;;
  f <- make_fault O E v code message actor ;;
  b1 <- py_set O E b0 "Fault" f ;;
  e3 <- py_set O E e2 "Body" b1 ;;
  envelope_xml n O E v e3.

(** parse_fault_message, soap11.py:29-30, soap12.py:25-26. *)
Definition parse_fault_message (v : soapver) (fault : pyval) : res (pyval * pyval * pyval) :=
  match v with
  | V11 => c <- py_get fault "faultcode" ;; s <- py_get fault "faultstring" ;; a <- py_get fault "faultactor" ;;
           Ok (c, s, a)
  | V12 => co <- py_get fault "Code" ;; c <- py_get co "Value" ;;
           re <- py_get fault "Reason" ;; s <- py_get re "Text" ;;
           a <- py_get fault "Role" ;; Ok (c, s, a)
  end.

(** Header.parse_as, soap11.py:42-43. *)
Definition header_parse_as (n : nat) (O : oracle) (E : env) (header : pyval) (cls : string) : res pyval :=
  x <- py_xmlelement header ;; parse_obj n O E cls x.
(** Body.content, soap11.py:62-63: [self._xmlelement[0]] *)
Definition body_content (body : pyval) : res node :=
  x <- py_xmlelement body ;;
  match el_children x with k :: _ => Ok k | [] => Err IndexError end.
(** Body.parse_as, soap11.py:59-60. *)
Definition body_parse_as (n : nat) (O : oracle) (E : env) (body : pyval) (cls : string) : res pyval :=
  x <- body_content body ;; parse_obj n O E cls x.

(** ** HTTP headers *)

(** [request.environ.get(name)]: what the dispatcher may ask for. *)
Definition environ : Type := string -> option string.

(** determine_soap_action, soap11.py:12-18, soap12.py:12-14. *)
Definition determine_soap_action (v : soapver) (env : environ) : option string :=
  match v with
  | V11 =>
      if truthy_str (env "SOAPACTION") then option_map (str_remove quote_c) (env "SOAPACTION")
      else if truthy_str (env "ACTION") then option_map (str_remove quote_c) (env "ACTION")
      else None
  | V12 =>
      let '(ct, cp) := parse_header (match env "CONTENT_TYPE" with Some s => s | None => "" end) in
      if String.eqb ct (content_type V12) then assoc "action" cp else None
  end.

(** build_http_request_headers, soap11.py:21-22, soap12.py:17-18. *)
Definition request_headers (v : soapver) (action : string) : list (string * string) :=
  match v with
  | V11 => [("Content-Type", content_type V11); ("SOAPAction", action)]
  | V12 => [("Content-Type", (content_type V12 ++ "; action=" ++ String quote_c (action ++ String quote_c ""))%string)]
  end.

(** SOAPVersion.get_version, soap.py:21-28. *)
Definition get_version (namespace : string) : res soapver :=
  if String.eqb namespace (envelope_ns V11) || String.eqb namespace (binding_ns V11) then Ok V11
  else if String.eqb namespace (envelope_ns V12) || String.eqb namespace (binding_ns V12) then Ok V12
  else Err ValueError.
