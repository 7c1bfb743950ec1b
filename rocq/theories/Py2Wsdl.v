(** Model of /repo/soapfish/py2wsdl.py (generating WSDL from a service) and of
    /repo/soapfish/wsdl.py (looking things up in a WSDL document). *)
From Coq Require Import String Ascii List ZArith NArith Bool.
From Verif Require Import PyBase PyRe Xml PyVal XsdSimple XsdComplex PyHttp Soap Client Dispatch LibClasses Py2Xsd.
Import ListNotations.
Open Scope string_scope.
Open Scope list_scope.

(** ** Services *)

(** What the generator reads of an xsd.Method (xsd.py:1164-1184) and of a
    soap.Service (soap.py:39-57).  Names, actions and locations are strings. *)
Record wmethod := mkWm {
  wm_op : string;
  wm_action : string;
  wm_in : iospec;
  wm_out : iospec;
  wm_style : string }.
Record wservice := mkWs {
  ws_name : string;
  ws_tns : string;
  ws_location : string;
  ws_schemas : list gschema;
  ws_version : soapver;
  ws_methods : list wmethod }.

(** [obj.name.k = v]: the attribute of an object held by an object. *)
Definition py_set_in (O : oracle) (L : env) (obj : pyval) (name k : string) (v : pyval) : res pyval :=
  match obj with
  | VObj c xe fs =>
      inner <- getattr fs name ;;
      inner' <- py_set O L inner k v ;;
      Ok (VObj c xe (assoc_set name inner' fs))
  | _ => Err AttributeError
  end.

Section gen.
  Variables (O : oracle) (L : env) (v : soapver).
  (** [wsdl.Cls(k=...)] where [wsdl] is wsdl11 or wsdl12: get_wsdl_classes,
      wsdl.py:35-42.  BINDING_NAMESPACE of a version is one of the two namespaces
      it knows. *)
  Let new (c : string) (kw : list (string * pyval)) : res pyval := construct O L (wn v c) kw.

  (** build_service, py2wsdl.py:20-30. *)
  Definition build_service (s : wservice) (definitions : pyval) : res pyval :=
    port <- new "Port" [] ;;
    port <- py_set O L port "name" (VStr (ws_name s ++ "Port")) ;;
    port <- py_set O L port "binding" (VStr ("tns:" ++ ws_name s ++ "Binding")) ;;
    address <- new "SOAP_Address" [("location", VStr (ws_location s))] ;;
    port <- py_set O L port "address" address ;;
    svc <- new "Service" [] ;;
    svc <- py_set O L svc "name" (VStr (ws_name s)) ;;
    svc <- py_append O L svc "ports" port ;;
    py_append O L definitions "services" svc.

  (** The operation of a binding, py2wsdl.py:42-48. *)
  Definition binding_operation (m : wmethod) : res pyval :=
    operation <- new "Operation" [] ;;
    operation <- py_set O L operation "name" (VStr (wm_op m)) ;;
    sop <- new "SOAP_Operation" [] ;;
    operation <- py_set O L operation "operation" sop ;;
    operation <- py_set_in O L operation "operation" "soapAction" (VStr (wm_action m)) ;;
    body <- new "SOAP_Body" [("use", VStr "literal")] ;;
    input <- new "Input" [("body", body)] ;;
    operation <- py_set O L operation "input" input ;;
    body <- new "SOAP_Body" [("use", VStr "literal")] ;;
    output <- new "Output" [("body", body)] ;;
    operation <- py_set O L operation "output" output ;;
    py_set_in O L operation "operation" "style" (VStr (wm_style m)).
  (** build_bindings, py2wsdl.py:33-51. *)
  Definition build_bindings (s : wservice) (definitions : pyval) : res pyval :=
    binding <- new "Binding" [] ;;
    binding <- py_set O L binding "name" (VStr (ws_name s ++ "Binding")) ;;
    binding <- py_set O L binding "type" (VStr ("tns:" ++ ws_name s ++ "PortType")) ;;
    sb <- new "SOAP_Binding" [] ;;
    binding <- py_set O L binding "binding" sb ;;
    binding <- py_set_in O L binding "binding" "style" (VStr "document") ;;
    binding <- py_set_in O L binding "binding" "transport" (VStr ns_soap_http) ;;
    binding <- foldM (fun b m => op <- binding_operation m ;; py_append O L b "operations" op) binding (ws_methods s) ;;
    py_append O L definitions "bindings" binding.

  (** The operation of a port type, py2wsdl.py:59-62. *)
  Definition portType_operation (m : wmethod) : res pyval :=
    operation <- new "Operation" [] ;;
    operation <- py_set O L operation "name" (VStr (wm_op m)) ;;
    input <- new "Input" [("message", VStr ("tns:" ++ wm_op m ++ "Input"))] ;;
    operation <- py_set O L operation "input" input ;;
    output <- new "Output" [("message", VStr ("tns:" ++ wm_op m ++ "Output"))] ;;
    py_set O L operation "output" output.
  (** build_portTypes, py2wsdl.py:54-65. *)
  Definition build_portTypes (s : wservice) (definitions : pyval) : res pyval :=
    pt <- new "PortType" [] ;;
    pt <- py_set O L pt "name" (VStr (ws_name s ++ "PortType")) ;;
    pt <- foldM (fun pt m => op <- portType_operation m ;; py_append O L pt "operations" op) pt (ws_methods s) ;;
    py_append O L definitions "portTypes" pt.

  (** One message, py2wsdl.py:70-76 and 79-85.  [None.__name__] is an AttributeError. *)
  Definition message (name : string) (io : iospec) : res pyval :=
    msg <- new "Message" [("name", VStr name)] ;;
    part <- new "Part" [("name", VStr "body")] ;;
    part <- (match io with
             | IOName e => py_set O L part "element" (VStr ("sns:" ++ e))
             | IOClass c => n <- uncapitalize c ;; py_set O L part "type" (VStr ("sns:" ++ n))
             | IONone => Err AttributeError
             end) ;;
    py_set O L msg "parts" (VList false [part]).
  (** build_messages, py2wsdl.py:68-86. *)
  Definition build_messages (s : wservice) (definitions : pyval) : res pyval :=
    foldM (fun d m =>
             i <- message (wm_op m ++ "Input") (wm_in m) ;;
             d <- py_append O L d "messages" i ;;
             o <- message (wm_op m ++ "Output") (wm_out m) ;;
             py_append O L d "messages" o) definitions (ws_methods s).

  (** build_types, py2wsdl.py:89-91. *)
  Definition build_types (E : env) (G : decls) (s : wservice) (definitions : pyval) : res pyval :=
    schemas <- mapM (generate_xsdspec O L E G) (ws_schemas s) ;;
    types <- new "Types" [("schemas", VList false schemas)] ;;
    py_set O L definitions "types" types.

  (** The Definitions object of generate_wsdl, py2wsdl.py:96-101. *)
  Definition build_definitions (E : env) (G : decls) (s : wservice) : res pyval :=
    d <- new "Definitions" [("targetNamespace", VStr (ws_tns s))] ;;
    d <- build_types E G s d ;;
    d <- build_service s d ;;
    d <- build_bindings s d ;;
    d <- build_portTypes s d ;;
    build_messages s d.
End gen.

(** generate_wsdl, py2wsdl.py:94-120.  The namespace of the prefix sns is that of the first
    schema; a service without schemas is an IndexError.  (Simplification: the
    declared namespaces are not checked for being empty.) *)
Definition generate_wsdl (n : nat) (O : oracle) (L E : env) (G : decls) (s : wservice) : res xdocument :=
  let v := ws_version s in
  d <- build_definitions O L v E G s ;;
  sns <- (match ws_schemas s with [] => Err IndexError | sc :: _ => Ok (gs_tns sc) end) ;;
  root <- mk_element (clark ns_wsdl "definitions") ;;
  root <- render_obj n O L (wn v "Definitions") root d (Some ns_wsdl) (Some qualified) ;;
  Ok (mkDoc [("sns", sns); ("soap", binding_ns v); ("tns", ws_tns s); ("wsdl", ns_wsdl); ("xsd", ns_xsd)] root).

(** ** wsdl.py *)

(** get_by_name, wsdl.py:5-10.  Iterating something that is not a list is a TypeError,
    splitting something that is not a string an AttributeError. *)
Fixpoint first_named (l : list pyval) (name : string) : res pyval :=
  match l with
  | [] => Err ValueError
  | item :: t =>
      n <- py_get item "name" ;;
      if py_eqb n (VStr name) then Ok item else first_named t name
  end.
Definition get_by_name (l fullname : pyval) : res pyval :=
  match fullname with
  | VStr s =>
      match l with
      | VList _ items => first_named items (last (str_split ":" s) "")
      | _ => Err TypeError
      end
  | _ => Err AttributeError
  end.

(** get_message_object, wsdl.py:25-32, with [x] "input" or "output".  The fields exist, so
    [getattr] never falls back to None. *)
Definition get_message_object (definitions binding operation : pyval) (x : string) : res pyval :=
  portTypes <- py_get definitions "portTypes" ;;
  ty <- py_get binding "type" ;;
  pt <- get_by_name portTypes ty ;;
  ops <- py_get pt "operations" ;;
  name <- py_get operation "name" ;;
  pto <- get_by_name ops name ;;
  obj <- py_get pto x ;;
  match obj with
  | VNone => Ok VNone
  | _ =>
      messages <- py_get definitions "messages" ;;
      m <- py_get obj "message" ;;
      get_by_name messages m
  end.

(** get_message_header, wsdl.py:13-22. *)
Definition get_message_header (definitions operation : pyval) (x : string) : res pyval :=
  obj <- py_get operation x ;;
  match obj with
  | VNone => Ok VNone
  | _ =>
      headers <- py_get obj "headers" ;;
      match headers with
      | VList _ items =>
          parts <- mapM (fun h =>
                     messages <- py_get definitions "messages" ;;
                     m <- py_get h "message" ;;
                     message <- get_by_name messages m ;;
                     parts <- py_get message "parts" ;;
                     p <- py_get h "part" ;;
                     get_by_name parts p) items ;;
          Ok (VList false parts)
      | _ => Err TypeError
      end
  end.

(** Message.part, wsdl11.py:86-90. *)
Definition message_part (m : pyval) : res pyval :=
  parts <- py_get m "parts" ;;
  match parts with
  | VList _ [p] => Ok p
  | VList _ _ => Err ValueError
  | _ => Err TypeError
  end.
