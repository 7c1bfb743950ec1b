(** Generating a service or a client from WSDL: the template
    /repo/soapfish/templates/wsdl.jinja2:18-152 with the filters and functions of
    /repo/soapfish/utils.py:40-41, 48-79, 86-111, and the reading of the document by
    wsdl2py.generate_code_from_wsdl (/repo/soapfish/wsdl2py.py:73-103).

    The model returns the statements that are printed after the schemas.  What
    Python makes of them is in PyService.v.

    Simplifications:
    - layout, comments and the preamble are left out; imported documents are in
      GenImports.v and the statements for the schemas in Xsd2Py.v;
    - in an address, url_regex only feeds a comment; that it fails when the
      address cannot be parsed is in the model;
    - hashlib.md5(...).hexdigest()[:5] is a parameter. *)
From Coq Require Import String Ascii List ZArith NArith Bool.
From Verif Require Import PyBase Xml PyVal XsdSimple XsdComplex PyHttp Soap Client Dispatch LibClasses Py2Xsd Py2Wsdl
  GenNames Xsd2Py PyUrl.
Import ListNotations.
Open Scope string_scope.
Open Scope list_scope.

(** ** Statements *)

(** An argument: ['text'], or the name [text]. *)
Inductive wexpr := WText (text : string) | WName (text : string).
Inductive wstmt :=
| SFunction (name parameter result : string)
| SHeaders (name schema : string) (parts : list (string * wexpr))
| SMethod (name : string) (kw : list (string * wexpr))
| SService (name port tns location : string) (schemas : list string) (version : soapver) (methods : list string)
| SStub (name service scheme host : string) (methods : list (string * string)).

(** ** jinja *)

Definition UndefinedError := Exn (EOther "UndefinedError") "".
Inductive jval := JUndefined | JVal (v : pyval).
(** [o.name] *)
Definition jattr (o : jval) (name : string) : res jval :=
  match o with
  | JUndefined => Err UndefinedError
  | JVal (VObj _ _ fs) => Ok (match assoc name fs with Some v => JVal v | None => JUndefined end)
  | JVal _ => Ok JUndefined
  end.
(** [m.part], a property: wsdl11.py:85-90, inherited by wsdl12.Message.  The exception it raises is not
    an AttributeError and passes through. *)
Definition jpart (m : jval) : res jval :=
  match m with
  | JUndefined => Err UndefinedError
  | JVal VNone => Ok JUndefined
  | JVal m => res_map JVal (message_part m)
  end.
(** [{{ v }}] for None, a string and Undefined *)
Definition jprint (v : jval) : string := match v with JUndefined => "" | JVal v => jtext v end.
Definition jtrue (v : jval) : bool := match v with JUndefined => false | JVal v => py_truthy v end.
(** [{% for x in v %}] *)
Definition jiter (v : jval) : res (list pyval) :=
  match v with JUndefined => Ok [] | JVal v => jlist v end.
(** [{{ v|remove_namespace }}] *)
Definition jlocal (v : jval) : string := match v with JUndefined => "None" | JVal v => local_part v end.
(** [v|remove_namespace|capitalize], utils.py:40-41, 86-87 *)
Definition jclass (v : jval) : res string :=
  match v with
  | JVal (VStr s) => match remove_namespace (Some s) with Some n => capitalize n | None => Err TypeError end
  | _ => Err TypeError
  end.
(** The address in [v] for urlparse, which takes None for an empty bytes object. *)
Definition jurl (v : jval) : res string :=
  match v with JUndefined => Err UndefinedError | JVal (VStr s) => Ok s | JVal _ => Err TypeError end.

Section gen.
  Variables (md5 : string -> string) (checked : string -> bool) (server : bool) (v : soapver) (d : pyval).

  (** schema_name of a schema, utils.py:48-68 *)
  Definition schema_name (s : pyval) : res string :=
    match s with
    | VNone => Err TypeError
    | _ => tns <- py_get s "targetNamespace" ;; match tns with VStr t => Ok (md5 t) | _ => Err AttributeError end
    end.
  Definition schema_var (s : pyval) : res string := n <- schema_name s ;; Ok ("Schema_" ++ n)%string.
  (** xsdspec.Schema.get_element_by_name, xsdspec.py:162-168: whether there is one *)
  Definition has_element (name : pyval) (s : pyval) : res bool :=
    els <- py_get s "elements" ;;
    l <- jlist els ;;
    foldM (fun b e => n <- py_get e "name" ;; Ok (b || py_eqb n name)) false l.
  (** remove_namespace, utils.py:40-41, of an attribute *)
  Definition py_remove_namespace (x : pyval) : pyval :=
    match x with
    | VStr s => match remove_namespace (Some s) with Some n => VStr n | None => VNone end
    | _ => VNone
    end.
  (** schema_select, utils.py:71-79: the first schema with all the elements, or None *)
  Fixpoint schema_select (schemas : list pyval) (elements : list pyval) : res pyval :=
    match schemas with
    | [] => Ok VNone
    | s :: t =>
        all <- foldM (fun (b : bool) e => if b then has_element (py_remove_namespace e) s else Ok false) true elements ;;
        if all : bool then Ok s else schema_select t elements
    end.
  (** [definitions.types.schemas] *)
  Definition doc_schemas : res (list pyval) :=
    types <- jattr (JVal d) "types" ;;
    schemas <- jattr types "schemas" ;;
    jiter schemas.

  Section port.
    Variable binding : pyval.
    Let io (operation : pyval) (x : string) : res jval := res_map JVal (get_message_object d binding operation x).

    (** lines 27-37: the function for an operation *)
    Definition op_function (operation : pyval) : res wstmt :=
      im <- io operation "input" ;;
      om <- io operation "output" ;;
      name <- jattr (JVal operation) "name" ;;
      ip <- jpart im ;;
      ie <- jattr ip "element" ;;
      op <- jpart om ;;
      oe <- jattr op "element" ;;
      Ok (SFunction (jprint name) (jlocal ie) (jlocal oe)).

    (** lines 48-59, 60-71: the class for the headers of a message *)
    Definition header_class (m : jval) (headers : list pyval) : res (list wstmt) :=
      match headers with
      | [] => Ok []
      | _ =>
          name <- jattr m "name" ;;
          schemas <- doc_schemas ;;
          elements <- mapM (fun p => py_get p "element") headers ;;
          s <- schema_select schemas elements ;;
          var <- schema_var s ;;
          parts <- mapM (fun p =>
                     e <- jattr (JVal p) "element" ;;
                     n <- jattr (JVal p) "name" ;;
                     if jtrue e then Ok (jprint n, WText (jlocal e))
                     else t <- jattr (JVal p) "type" ;; c <- jclass t ;; Ok (jprint n, WName c)) headers ;;
          Ok [SHeaders (jprint name ++ "Headers") var parts]
      end.
    (** lines 76-83, 87-94: what a message gives as arguments *)
    Definition message_args (x part_arg : string) (m : jval) : res (list (string * wexpr)) :=
      parts <- jattr m "parts" ;;
      if jtrue parts then
        p <- jpart m ;;
        e <- jattr p "element" ;;
        if jtrue e then
          n <- jattr p "name" ;;
          Ok [(x, WText (jlocal e)); (part_arg, WText (jprint n))]
        else
          t <- jattr p "type" ;;
          c <- jclass t ;;
          Ok [(x, WName c)]
      else Ok [].
    (** lines 84-86, 95-97 *)
    Definition header_arg (x : string) (m : jval) (headers : list pyval) : res (list (string * wexpr)) :=
      match headers with
      | [] => Ok []
      | _ => name <- jattr m "name" ;; Ok [(x, WName (jprint name ++ "Headers")%string)]
      end.
    (** lines 43-105: the header classes and the Method of an operation *)
    Definition op_method (operation : pyval) : res (list wstmt) :=
      im <- io operation "input" ;;
      om <- io operation "output" ;;
      imh <- get_message_header d operation "input" ;;
      omh <- get_message_header d operation "output" ;;
      let headers x := match x with VList _ l => l | _ => [] end in
      ih <- header_class im (headers imh) ;;
      oh <- header_class om (headers omh) ;;
      name <- jattr (JVal operation) "name" ;;
      so <- jattr (JVal operation) "operation" ;;
      action <- jattr so "soapAction" ;;
      i <- message_args "input" "inputPartName" im ;;
      iha <- header_arg "input_header" im (headers imh) ;;
      o <- message_args "output" "outputPartName" om ;;
      oha <- header_arg "output_header" om (headers omh) ;;
      style <- jattr so "style" ;;
      Ok (ih ++ oh ++
          [SMethod (jprint name ++ "_method")
             ((if server then [("function", WName (jprint name))] else []) ++
              [("soapAction", WText (jprint action))] ++ i ++ iha ++ o ++ oha ++
              [("operationName", WText (jprint name))] ++
              (if jtrue style then [("style", WText (jprint style))] else []))]).

    (** lines 141-148: a method of the stub *)
    Definition op_call (operation : pyval) : res (string * string) :=
      im <- io operation "input" ;;
      name <- jattr (JVal operation) "name" ;;
      p <- jpart im ;;
      e <- jattr p "element" ;;
      Ok (jprint name, jlocal e).
  End port.

  (** lines 19-150: the statements for a port of a service *)
  Definition port_code (service port : pyval) : res (list wstmt) :=
    bindings <- py_get d "bindings" ;;
    ref <- py_get port "binding" ;;
    binding <- get_by_name bindings ref ;;
    bb <- jattr (JVal binding) "binding" ;;
    transport <- jattr bb "transport" ;;
    if negb (match transport with JVal t => py_eqb t (VStr ns_soap_http) | JUndefined => false end) then Ok []
    else
      ops <- (o <- jattr (JVal binding) "operations" ;; jiter o) ;;
      functions <- (if server then mapM (op_function binding) ops else Ok []) ;;
      methods <- mapM (op_method binding) ops ;;
      name <- jattr (JVal port) "name" ;;
      tns <- jattr (JVal d) "targetNamespace" ;;
      address <- jattr (JVal port) "address" ;;
      location <- (l <- jattr address "location" ;; jurl l) ;;
      template <- url_template checked location ;;
      schemas <- (l <- doc_schemas ;; mapM schema_var l) ;;
      names <- mapM (fun o => n <- jattr (JVal o) "name" ;; Ok (jprint n ++ "_method")%string) ops ;;
      let svc := (jprint name ++ "_SERVICE")%string in
      last <- (if server then
                 ports <- py_get service "ports" ;;
                 l <- jlist ports ;;
                 first <- (match l with p :: _ => Ok (JVal p) | [] => Ok JUndefined end) ;;
                 a <- jattr first "address" ;;
                 loc <- (l <- jattr a "location" ;; jurl l) ;;
                 urlparse checked loc ;;;
                 Ok []
               else
                 scheme <- url_component checked location "scheme" ;;
                 host <- url_component checked location "netloc" ;;
                 calls <- mapM (op_call binding) ops ;;
                 Ok [SStub (jprint name ++ "ServiceStub") svc scheme host calls]) ;;
      Ok (functions ++ concat methods ++ [SService svc (jprint name) (jprint tns) template schemas v names] ++ last).

  (** lines 18-152 *)
  Definition service_code : res (list wstmt) :=
    services <- py_get d "services" ;;
    l <- jlist services ;;
    code <- mapM (fun s => ports <- py_get s "ports" ;; l <- jlist ports ;; mapM (port_code s) l) l ;;
    Ok (concat (concat code)).
End gen.

(** SOAPVersion.get_version_from_xml, soap.py:33-36: the XPath expression
    wsdl:binding/soap12:binding from the root *)
Definition version_from_xml (root : node) : soapver :=
  let sub t x := filter (fun y => match y with Elem t' _ _ => String.eqb t' t | _ => false end)
                   (match x with Elem _ _ kids => kids | _ => [] end) in
  if existsb (fun b => match sub (clark ns_wsdl_soap12 "binding") b with [] => false | _ => true end) (sub (clark ns_wsdl "binding") root)
  then V12 else V11.

(** generate_code_from_wsdl, wsdl2py.py:73-103, for a document without imports: the
    statements for the services. *)
Definition code_from_wsdl (n : nat) (O : oracle) (L : env) (md5 : string -> string) (checked : string -> bool) (server : bool)
    (root : node) : res (list wstmt) :=
  let v := version_from_xml root in
  d <- parse_obj n O L (wn v "Definitions") root ;;
  service_code md5 checked server v d.
