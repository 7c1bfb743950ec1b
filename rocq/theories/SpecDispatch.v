(** Vocabulary for the properties of the dispatcher. *)
From Coq Require Import String Ascii List ZArith NArith Bool.
From Verif Require Import PyBase Xml PyVal XsdSimple XsdComplex XsdSchema PyHttp Soap SpecSoap Dispatch.
Import ListNotations.
Open Scope string_scope.
Open Scope list_scope.

(** ** Requests *)
Definition request_method (rq : request) (m : string) : Prop := rq_environ rq "REQUEST_METHOD" = Some m.
Definition query_of (rq : request) : string := match rq_environ rq "QUERY_STRING" with Some q => q | None => "" end.
(** The query string has the key [k]; its first value is [v]. *)
Definition has_key (rq : request) (k : string) : Prop := exists v, In (k, v) (parse_qsl (query_of rq)).
Definition first_value (rq : request) (k v : string) : Prop :=
  exists l1 l2, parse_qsl (query_of rq) = l1 ++ (k, v) :: l2 /\ forall v', ~ In (k, v') l1.
(** The action as the version of the service determines it, when there is one. *)
Definition has_action {W} (D : dispatcher W) (rq : request) (a : string) : Prop :=
  determine_soap_action (sv_version (d_service D)) (rq_environ rq) = Some a /\ a <> "".
Definition no_action {W} (D : dispatcher W) (rq : request) : Prop := forall a, ~ has_action D rq a.

(** The request is an envelope whose Header is [h] and whose Body has [x] as its
    first child. *)
Definition carries {W} (P : platform) (D : dispatcher W) (rq : request) (h : pyval) (x : node) : Prop :=
  exists doc e b, pf_parse P (rq_content rq) = Ok doc /\
    parse_obj (pf_n P) (pf_O P) (pf_E P) (envelope_cls (sv_version (d_service D))) doc = Ok e /\
    py_get e "Header" = Ok h /\ py_get e "Body" = Ok b /\ b <> VNone /\ body_content b = Ok x.

(** The first element of [l] with a property. *)
Definition first_with {A} (p : A -> Prop) (l : list A) (a : A) : Prop :=
  exists l1 l2, l = l1 ++ a :: l2 /\ p a /\ forall b, In b l1 -> ~ p b.

(** The type method [m] expects: its input class, or the type of its input element. *)
Definition input_type {W} (P : platform) (D : dispatcher W) (m : method) (t : ftype) : Prop :=
  (exists c, m_in m = IOClass c /\ t = TComplex c) \/
  exists name e, m_in m = IOName name /\ se_type e = t /\
    find_element_by_name (pf_gn P) (pf_G P) (sv_schemas (d_service D)) name = Ok (Some e).
(** The element [x] read as content of type [t]. *)
Definition read_as (P : platform) (t : ftype) (x : node) : res pyval :=
  match t with
  | TComplex c => parse_obj (pf_n P) (pf_O P) (pf_E P) c x
  | TSimple s => st_pythonvalue (pf_O P) s (match el_text x with Some text => VStr text | None => VNone end)
  end.

(** ** Middlewares *)
(** A middleware that calls the rest of the stack at most once. *)
Inductive no_more {W} : mprog W -> Prop :=
| nm_done s r : no_more (MDone s r).
Inductive at_most_once {W} : mprog W -> Prop :=
| am_done s r : at_most_once (MDone s r)
| am_next s k : (forall s' r, no_more (k s' r)) -> at_most_once (MNext s k).
Definition well_behaved {W} (m : middleware W) : Prop := forall s, at_most_once (m s).

Definition is_call (e : event) : bool := match e with ECalled _ _ => true | _ => false end.
Definition calls (tr : list event) : nat := length (filter is_call tr).

(** A middleware that does [before], hands on the request, does [after] and
    returns what it got. *)
Definition wrapper {W} (before after : W -> W) : middleware W := fun s =>
  MNext (before (fst s), snd s) (fun s' r => MDone (after (fst s'), snd s') r).

(** No hooks, no middlewares. *)
Definition plain {W} (D : dispatcher W) : Prop := d_hooks D = [] /\ d_middlewares D = [].
Definition no_hooks {W} (D : dispatcher W) : Prop := d_hooks D = [].

(** What the two versions of SOAP prescribe: namespace, content type, and the
    codes for faults of the sender and of the receiver. *)
Definition soap_ns (v : soapver) : string :=
  match v with V11 => "http://schemas.xmlsoap.org/soap/envelope/" | V12 => "http://www.w3.org/2003/05/soap-envelope" end.
Definition media_type (v : soapver) : string := match v with V11 => "text/xml" | V12 => "application/soap+xml" end.
Definition sender_code (v : soapver) : string := match v with V11 => "Client" | V12 => "ns0:Sender" end.
Definition receiver_code (v : soapver) : string := match v with V11 => "Server" | V12 => "ns0:Receiver" end.
(** A fault: status 500, the content type of the version, and the serialised
    fault envelope. *)
Definition is_fault {W} (P : platform) (D : dispatcher W) (rs : response) (code msg : string) (headers : list node) : Prop :=
  rs_status rs = 500%Z /\
  assoc "Content-Type" (rs_headers rs) = Some (media_type (sv_version (d_service D))) /\
  rs_content rs = Some (pf_ser P (soap_envelope (soap_ns (sv_version (d_service D))) headers
    [match sv_version (d_service D) with V11 => fault11 | V12 => fault12 end
       (soap_ns (sv_version (d_service D))) code msg None])).

(** The platform: the SOAP classes are there and the recursion limit leaves room
    for an envelope. *)
Definition soap_platform (P : platform) : Prop :=
  exists U lim n, pf_E P = soap_env U lim /\ pf_n P = 4 + n.

(** ** Header blocks *)
(** A block of WS-Addressing. *)
Definition wsa_block (c : node) : Prop :=
  exists name a k, ncname_ok name = true /\ c = Elem (clark "http://www.w3.org/2005/08/addressing" name) a k.
(** What lxml raises for a document that it cannot read or that is not valid. *)
Definition lxml_failure (e : exn) : Prop := exists m, e = Exn EDocumentInvalid m \/ e = Exn EXMLSyntaxError m.
(** A block of WS-Addressing is checked against its own schema, any other against
    those of the service; unless the dispatcher is strict, the latter may fail. *)
Definition block_ok (P : platform) (strict : bool) (c : node) : Prop :=
  (wsa_block c /\ pf_wsa P c = Ok tt) \/
  (~ wsa_block c /\ (pf_valid P c = Ok tt \/ strict = false /\ exists e, lxml_failure e /\ pf_valid P c = Err e)).
Definition block_bad (P : platform) (strict : bool) (c : node) (e : exn) : Prop :=
  (wsa_block c /\ pf_wsa P c = Err e) \/ (~ wsa_block c /\ pf_valid P c = Err e /\ (strict = true \/ ~ lxml_failure e)).
(** No header, or one whose blocks are all right. *)
Definition header_ok (P : platform) (strict : bool) (h : pyval) : Prop :=
  h = VNone \/ exists x, py_xmlelement h = Ok x /\ Forall (block_ok P strict) (el_children x).
(** The first block that is not fails with [e]. *)
Definition header_bad (P : platform) (strict : bool) (h : pyval) (e : exn) : Prop :=
  exists x l1 c l2, py_xmlelement h = Ok x /\ el_children x = l1 ++ c :: l2 /\ Forall (block_ok P strict) l1 /\ block_bad P strict c e.
(** What the function gets as header: the header read as the class of the method,
    else as the class of the service; without a class, or a header, None. *)
Definition header_as {W} (P : platform) (D : dispatcher W) (m : method) (h h' : pyval) : Prop :=
  h = VNone /\ h' = VNone \/
  h <> VNone /\
  ((exists c x, (m_ih m = Some c \/ m_ih m = None /\ sv_ih (d_service D) = Some c) /\
      py_xmlelement h = Ok x /\ parse_obj (pf_n P) (pf_O P) (pf_E P) c x = Ok h') \/
   m_ih m = None /\ sv_ih (d_service D) = None /\ h' = VNone).

(** The request passes all checks and gets to the function [f], which sees the
    request as [rq']. *)
Definition reaches_handler {W} (P : platform) (D : dispatcher W) (rq rq' : request) (f : string) : Prop :=
  exists x h m t h',
    carries P D rq h x /\ header_ok P (d_strict D) h /\ pf_valid P x = Ok tt /\
    find_handler P D rq x = Ok m /\ m_fn m = Some f /\
    header_as P D m h h' /\ rq_header rq' = h' /\
    input_type P D m t /\ read_as P t x = Ok (rq_body rq') /\
    rq_method rq' = Some m /\ rq_environ rq' = rq_environ rq /\ rq_content rq' = rq_content rq.

(** [e] is what the first schema that declares [name] declares it as. *)
Definition declared_as (P : platform) (schemas : list nat) (name : string) (e : selement) : Prop :=
  exists l1 s l2, schemas = l1 ++ s :: l2 /\ assoc name (s_elements (pf_G P s)) = Some e /\
    forall s', In s' l1 -> assoc name (s_elements (pf_G P s')) = None.
(** [n] is the qualified name [g] without its prefix. *)
Definition without_prefix (g n : string) : Prop :=
  ~ In ":"%char (to_l n) /\ (g = n \/ exists prefix, g = (prefix ++ ":" ++ n)%string).

(** A bad request, and the message it deserves. *)
Inductive bad_post {W} (P : platform) (D : dispatcher W) (rq : request) : string -> Prop :=
| bp_syntax m : pf_parse P (rq_content rq) = Err (Exn EXMLSyntaxError m) -> bad_post P D rq ("XMLSyntaxError: " ++ m)%string
| bp_no_body doc e : pf_parse P (rq_content rq) = Ok doc ->
    parse_obj (pf_n P) (pf_O P) (pf_E P) (envelope_cls (sv_version (d_service D))) doc = Ok e ->
    py_get e "Body" = Ok VNone -> bad_post P D rq "Missing SOAP body"
| bp_invalid h x m : carries P D rq h x -> header_ok P (d_strict D) h ->
    pf_valid P x = Err (Exn EDocumentInvalid m) -> bad_post P D rq ("DocumentInvalid: " ++ m)%string
| bp_header h x m : carries P D rq h x -> header_bad P (d_strict D) h (Exn EDocumentInvalid m) ->
    bad_post P D rq ("DocumentInvalid: " ++ m)%string
| bp_action h t a k act : carries P D rq h (Elem t a k) -> header_ok P (d_strict D) h -> pf_valid P (Elem t a k) = Ok tt ->
    has_action D rq act -> (forall m, In m (sv_methods (d_service D)) -> m_action m <> act) ->
    bad_post P D rq ("Invalid SOAP action: " ++ act)%string
| bp_root h t a k : carries P D rq h (Elem t a k) -> header_ok P (d_strict D) h -> pf_valid P (Elem t a k) = Ok tt ->
    no_action D rq -> (forall m, In m (sv_methods (d_service D)) -> m_in m <> IOName (local_name t)) ->
    (forall s, In s (sv_schemas (d_service D)) -> assoc (local_name t) (s_elements (pf_G P s)) = None) ->
    bad_post P D rq ("Missing SOAP action and invalid root tag: " ++ local_name t)%string.

(** The dispatcher with other hooks. *)
Definition with_hooks {W} (D : dispatcher W) (hooks : list (string * hook W)) : dispatcher W :=
  mkDisp (d_service D) (d_middlewares D) hooks (d_wsdl D) (d_xsds D) (d_strict D).
Definition without_hook {W} (name : string) (D : dispatcher W) : dispatcher W :=
  with_hooks D (filter (fun p => negb (String.eqb (fst p) name)) (d_hooks D)).
Definition documented_hooks : list string :=
  ["soap-request"; "soap-response"; "wsdl-request"; "wsdl-response"; "xsd-request"; "xsd-response"].
(** The two dispatchers have the same function for each of the hooks but
    'xsd-response'. *)
Definition same_hooks {W} (D D' : dispatcher W) : Prop :=
  forall n, In n ["soap-request"; "soap-response"; "wsdl-request"; "wsdl-response"; "xsd-request"] ->
  assoc n (d_hooks D) = assoc n (d_hooks D').

(** The exceptions of Python that are no Exceptions. *)
Definition base_exception (e : exn) : Prop :=
  exists name text, e = Exn (EOther name) text /\ In name ["KeyboardInterrupt"; "SystemExit"; "GeneratorExit"].
(** "Name: text" *)
Definition reported (e : exn) : string :=
  match e with
  | Exn EValueError m => "ValueError: " ++ m | Exn ETypeError m => "TypeError: " ++ m | Exn EAttributeError m => "AttributeError: " ++ m
  | Exn EKeyError m => "KeyError: " ++ m | Exn EIndexError m => "IndexError: " ++ m | Exn ENotImplementedError m => "NotImplementedError: " ++ m
  | Exn ERecursion m => "RecursionError: " ++ m | Exn EUnboundLocalError m => "UnboundLocalError: " ++ m | Exn EOverflowError m => "OverflowError: " ++ m
  | Exn EParseError m => "ParseError: " ++ m | Exn EXMLSyntaxError m => "XMLSyntaxError: " ++ m | Exn EDocumentInvalid m => "DocumentInvalid: " ++ m
  | Exn EStopIteration m => "StopIteration: " ++ m | Exn EAssertionError m => "AssertionError: " ++ m | Exn (EOther n) m => n ++ ": " ++ m
  | Exn EOutOfFuel m => ": " ++ m
  | SOAPError _ m _ => "SOAPError: " ++ m
  end%string.
(** Code and message of the fault that stands for an exception: a SOAPError's
    own, else Server and "Name: text" or the traceback. *)
Definition fault_of {W} (P : platform) (D : dispatcher W) (tb : bool) (e : exn) : string * string :=
  match e with
  | SOAPError c m _ => (c, m)
  | _ => (receiver_code (sv_version (d_service D)), if tb then pf_traceback P e else reported e)
  end.
