(** The WSDL document that describes a service, written down as a tree, and what
    it means for the references in a WSDL document to resolve. *)
From Coq Require Import String Ascii List ZArith NArith Bool.
From Verif Require Import PyBase PyRe Xml PyVal XsdSimple XsdComplex PyHttp Soap Client Dispatch LibClasses
  SpecParse SpecRound Py2Xsd SpecXsd SpecFacets Py2Wsdl.
Import ListNotations.
Open Scope string_scope.
Open Scope list_scope.

(** ** The document *)
Definition wel (tag : string) (attrs : list (string * string)) (kids : list node) : node :=
  Elem (clark "http://schemas.xmlsoap.org/wsdl/" tag) attrs kids.
(** An element of the SOAP binding: soap or soap12. *)
Definition soap_el (v : soapver) (tag : string) (attrs : list (string * string)) : node :=
  Elem (clark (match v with V11 => "http://schemas.xmlsoap.org/wsdl/soap/" | V12 => "http://schemas.xmlsoap.org/wsdl/soap12/" end) tag) attrs [].

Definition io_ref (io : iospec) : list (string * string) :=
  match io with
  | IOName e => [("element", "sns:" ++ e)%string]
  | IOClass c => [("type", "sns:" ++ type_name c)%string]
  | IONone => []
  end.
Definition describe_message (name : string) (io : iospec) : node :=
  wel "message" [("name", name)] [wel "part" (("name", "body") :: io_ref io) []].
Definition describe_messages (m : wmethod) : list node :=
  [describe_message (wm_op m ++ "Input") (wm_in m); describe_message (wm_op m ++ "Output") (wm_out m)].
Definition describe_operation (m : wmethod) : node :=
  wel "operation" [("name", wm_op m)]
    [wel "input" [("message", "tns:" ++ wm_op m ++ "Input")%string] [];
     wel "output" [("message", "tns:" ++ wm_op m ++ "Output")%string] []].
Definition describe_bound (v : soapver) (m : wmethod) : node :=
  let body := soap_el v "body" [("use", "literal")] in
  wel "operation" [("name", wm_op m)]
    [wel "input" [] [body]; wel "output" [] [body];
     soap_el v "operation" [("soapAction", wm_action m); ("style", wm_style m)]].

Definition describe_service (O : oracle) (E : env) (G : decls) (s : wservice) : node :=
  let v := ws_version s in
  wel "definitions" [("targetNamespace", ws_tns s)]
    ([wel "types" [] (map (describe_schema O E G) (ws_schemas s))] ++
     flat_map describe_messages (ws_methods s) ++
     [wel "portType" [("name", ws_name s ++ "PortType")%string] (map describe_operation (ws_methods s))] ++
     [wel "binding" [("name", ws_name s ++ "Binding")%string; ("type", "tns:" ++ ws_name s ++ "PortType")%string]
        (map (describe_bound v) (ws_methods s) ++
         [soap_el v "binding" [("style", "document"); ("transport", "http://schemas.xmlsoap.org/soap/http")]])] ++
     [wel "service" [("name", ws_name s)]
        [wel "port" [("name", ws_name s ++ "Port")%string; ("binding", "tns:" ++ ws_name s ++ "Binding")%string]
           [soap_el v "address" [("location", ws_location s)]]]]).

(** ** Which services can be described *)
Definition io_describable (io : iospec) : Prop :=
  match io with IOName e => text e | IOClass c => proper_name c | IONone => False end.
Definition method_describable (m : wmethod) : Prop :=
  text (wm_op m) /\ text (wm_action m) /\ io_describable (wm_in m) /\ io_describable (wm_out m) /\
  (wm_style m = "document" \/ wm_style m = "rpc").
Definition service_describable (O : oracle) (E : env) (G : decls) (s : wservice) : Prop :=
  text (ws_name s) /\ text (ws_tns s) /\ text (ws_location s) /\
  ws_schemas s <> [] /\ Forall (schema_describable O E G) (ws_schemas s) /\
  Forall method_describable (ws_methods s).

(** ** Reading a WSDL document *)
Definition wsdl_kids (tag : string) (x : node) : list node :=
  filter (fun y => match y with Elem t _ _ => String.eqb t (clark "http://schemas.xmlsoap.org/wsdl/" tag) | _ => false end) (subnodes x).
Definition is_named (name : string) (x : node) : bool :=
  match attr_of "name" x with Some n => String.eqb n name | None => false end.

Definition colon_free (s : string) : Prop := ~ In ":"%char (to_l s).
(** The reference [ref], a prefixed name, is in the document's own namespace and
    [x] is the only child of the root with that tag and name. *)
Definition points (doc : xdocument) (tag ref : string) (x : node) : Prop :=
  exists p n ns, ref = (p ++ ":" ++ n)%string /\ colon_free n /\ assoc p (xd_prefixes doc) = Some ns /\ attr_of "targetNamespace" (xd_root doc) = Some ns /\
    filter (is_named n) (wsdl_kids tag (xd_root doc)) = [x].
Definition refers (doc : xdocument) (tag attr : string) (from to : node) : Prop :=
  exists ref, attr_of attr from = Some ref /\ points doc tag ref to.

(** Every reference between the parts of the document resolves: ports to
    bindings, bindings to port types, the operations of a binding to operations of
    its port type, and the operations of a port type to messages. *)
Definition consistent (doc : xdocument) : Prop :=
  let root := xd_root doc in
  (forall s p, In s (wsdl_kids "service" root) -> In p (wsdl_kids "port" s) -> exists b, refers doc "binding" "binding" p b) /\
  (forall b, In b (wsdl_kids "binding" root) -> exists t, refers doc "portType" "type" b t /\
     forall o, In o (wsdl_kids "operation" b) -> exists n o', attr_of "name" o = Some n /\
       filter (is_named n) (wsdl_kids "operation" t) = [o']) /\
  (forall t o, In t (wsdl_kids "portType" root) -> In o (wsdl_kids "operation" t) ->
     forall tag d, In tag ["input"; "output"] -> In d (wsdl_kids tag o) -> exists m, refers doc "message" "message" d m).

(** [part] is the one part of the message of the [tag] (input or output) of the
    operation [op] of the service [name], reached as a client would: from the
    service to its port, its binding, the binding's port type and the operation. *)
Definition leads_to (doc : xdocument) (name op tag : string) (part : node) : Prop :=
  exists svc port b t ob o d m,
    In svc (wsdl_kids "service" (xd_root doc)) /\ named name svc /\ In port (wsdl_kids "port" svc) /\
    refers doc "binding" "binding" port b /\ In ob (wsdl_kids "operation" b) /\ named op ob /\
    refers doc "portType" "type" b t /\ In o (wsdl_kids "operation" t) /\ named op o /\
    wsdl_kids tag o = [d] /\ refers doc "message" "message" d m /\ wsdl_kids "part" m = [part].

(** The reference [ref] leads to an XSD definition with this tag: some schema of
    the document has the namespace of its prefix and defines that name. *)
Definition schema_points (doc : xdocument) (tag ref : string) : Prop :=
  exists p n ns types sc x, ref = (p ++ ":" ++ n)%string /\ assoc p (xd_prefixes doc) = Some ns /\
    In types (wsdl_kids "types" (xd_root doc)) /\ In sc (kids_tagged "schema" types) /\
    attr_of "targetNamespace" sc = Some ns /\ In x (kids_tagged tag sc) /\ named n x.
(** What the message of an operation declares. *)
Definition declares_io (io : iospec) (part : node) : Prop :=
  match io with
  | IOName e => attr_of "element" part = Some ("sns:" ++ e)%string /\ attr_of "type" part = None
  | IOClass c => attr_of "type" part = Some ("sns:" ++ type_name c)%string /\ attr_of "element" part = None
  | IONone => False
  end.
(** The schema declares the element, or describes the class, of a message. *)
Definition schema_has (sc : gschema) (io : iospec) : Prop :=
  match io with
  | IOName e => In e (map fst (gs_elements sc))
  | IOClass c => In c (gs_complex sc)
  | IONone => False
  end.
Definition io_defined (doc : xdocument) (part : node) : Prop :=
  (exists ref, attr_of "element" part = Some ref /\ schema_points doc "element" ref) \/
  (exists ref, attr_of "type" part = Some ref /\ schema_points doc "complexType" ref).

(** Names that can be referred to: without colons, and a name for each operation. *)
Definition referable (s : wservice) : Prop :=
  colon_free (ws_name s) /\ Forall (fun m => colon_free (wm_op m)) (ws_methods s) /\ NoDup (map wm_op (ws_methods s)).

(** ** Reading the objects of a WSDL document *)
Definition in_list (obj : pyval) (name : string) (x : pyval) : Prop :=
  exists flag l, py_get obj name = Ok (VList flag l) /\ In x l.
(** The part of a message names the element, or the type, of a message. *)
Definition part_declares (io : iospec) (part : pyval) : Prop :=
  match io with
  | IOName e => py_get part "element" = Ok (VStr ("sns:" ++ e)) /\ py_get part "type" = Ok VNone
  | IOClass c => py_get part "type" = Ok (VStr ("sns:" ++ type_name c)) /\ py_get part "element" = Ok VNone
  | IONone => False
  end.

(** What an object holds: without the element it was read from, and whether its
    lists are typed lists or plain ones. *)
Fixpoint data (v : pyval) : pyval :=
  match v with
  | VObj c _ fs => VObj c None (map (fun p => (fst p, data (snd p))) fs)
  | VList _ l => VList true (map data l)
  | _ => v
  end.
(** A document as received: pretty-printed or not, also with comments and elements
    unknown to the class. *)
Definition received (E : env) (c : string) (sent doc : node) : Prop :=
  exists pretty, layout (wire sent) pretty /\ (doc = pretty \/ noise E c pretty doc).
