(** The server: soap_dispatch.py, core.py, middlewares.py and the WSGI, Django
    and Flask adapters. *)
From Coq Require Import String Ascii List ZArith NArith Bool.
From Verif Require Import PyBase Xml PyVal XsdSimple XsdComplex XsdSchema PyHttp Soap.
Import ListNotations.
Open Scope string_scope.
Open Scope list_scope.

(** ** Exceptions *)

(** [e.__class__.__name__] *)
Definition exn_name (e : exn) : string :=
  match e with
  | SOAPError _ _ _ => "SOAPError"
  | Exn c _ =>
      match c with
      | EValueError => "ValueError" | ETypeError => "TypeError" | EAttributeError => "AttributeError"
      | EKeyError => "KeyError" | EIndexError => "IndexError" | ENotImplementedError => "NotImplementedError"
      | ERecursion => "RecursionError" | EUnboundLocalError => "UnboundLocalError" | EOverflowError => "OverflowError"
      | EParseError => "ParseError" | EXMLSyntaxError => "XMLSyntaxError" | EDocumentInvalid => "DocumentInvalid"
      | EStopIteration => "StopIteration" | EAssertionError => "AssertionError" | EOther n => n | EOutOfFuel => ""
      end
  end.
(** [str(e)]; used for exceptions that are not SOAPErrors only. *)
Definition exn_text (e : exn) : string := match e with Exn _ m => m | SOAPError _ m _ => m end.
(** [f'{e.__class__.__name__}: {e}'] *)
Definition exn_message (e : exn) : string := (exn_name e ++ ": " ++ exn_text e)%string.
(** [isinstance(e, (etree.DocumentInvalid, etree.XMLSyntaxError))] *)
Definition is_lxml_error (e : exn) : bool :=
  match e with Exn EXMLSyntaxError _ => true | Exn EDocumentInvalid _ => true | _ => false end.
Definition is_syntax_error (e : exn) : bool := match e with Exn EXMLSyntaxError _ => true | _ => false end.
(** [isinstance(e, Exception)]: everything but the three exceptions that derive
    from BaseException directly. *)
Definition is_Exception (e : exn) : bool :=
  match e with
  | Exn (EOther n) _ => negb (str_in n ["KeyboardInterrupt"; "SystemExit"; "GeneratorExit"])
  | _ => true
  end.

(** ** Methods, requests and responses *)

(** [Method.input], [Method.output]: None, the name of an element, or a class. *)
Inductive iospec := IONone | IOName (s : string) | IOClass (c : string).

(** xsd.Method, xsd.py:1164-1184, without the part names and the style, which
    only WSDL generation uses.  [m_fn] names the function. *)
Record method := mkMethod {
  m_op : string;
  m_action : string;
  m_in : iospec;
  m_out : iospec;
  m_ih : option string;
  m_oh : option string;
  m_fn : option string }.

(** core.SOAPRequest, core.py:31-38.  The attribute [dispatcher] is left out:
    there is one dispatcher.  [http_content] is modelled as a string, whether
    str or bytes. *)
Record request := mkReq {
  rq_environ : environ;
  rq_content : string;
  rq_header : pyval;
  rq_body : pyval;
  rq_method : option method }.
Definition new_request (e : environ) (content : string) : request := mkReq e content VNone VNone None.
Definition set_method (m : method) (r : request) : request :=
  mkReq (rq_environ r) (rq_content r) (rq_header r) (rq_body r) (Some m).
Definition set_header (h : pyval) (r : request) : request :=
  mkReq (rq_environ r) (rq_content r) h (rq_body r) (rq_method r).
Definition set_rq_body (b : pyval) (r : request) : request :=
  mkReq (rq_environ r) (rq_content r) (rq_header r) b (rq_method r).

(** What can be in [SOAPResponse.soap_body]: a SOAPError or any other object. *)
Inductive payload := PVal (v : pyval) | PErr (code msg : string) (actor : option string).
(** core.SOAPResponse, core.py:17-28. *)
Record response := mkResp {
  rs_body : payload;
  rs_header : pyval;
  rs_status : Z;
  rs_headers : list (string * string);
  rs_content : option string }.
(** SOAPResponse.__init__, core.py:18-23.  The argument http_status_code is
    ignored: line 21 stores 200. *)
Definition new_response (body : payload) (header : pyval) (http_status_code : Z) (content : option string)
    (headers : list (string * string)) : response :=
  mkResp body header 200 headers content.
(** What a handler or a middleware returns: a SOAPResponse, or something else
    (an object, a SOAPError). *)
Inductive result := RResp (r : response) | RPay (p : payload).
(** [response if isinstance(response, SOAPResponse) else SOAPResponse(response)] *)
Definition as_response (r : result) : response :=
  match r with RResp r => r | RPay p => new_response p VNone 200 None [] end.

(** ** The outside world

    lxml, the validators and the classes: parsing and serialising text, the
    validators [schema_validator] and [wsa.XML_SCHEMA.assertValid], the class
    environment with its recursion limit, the schema objects. *)
Record platform := mkPlat {
  pf_O : oracle;
  pf_E : env;
  pf_n : nat;
  pf_G : sgraph;
  pf_gn : nat;
  pf_parse : string -> res node;
  pf_ser : node -> string;
  pf_valid : node -> res unit;
  pf_wsa : node -> res unit;
  pf_traceback : exn -> string }.

(** What is observed of a dispatch besides its result: bodies accepted by the
    validator and calls of user functions. *)
Inductive event := EValidated (x : node) | ECalled (fn : string) (body : pyval).

Section D.
  (** The state of the application: whatever handlers, middlewares and hooks
      share. *)
  Variable W : Type.

  (** A user function: receives the request and the parsed body, may change the
      request and the state. *)
  Definition handler : Type := W * request -> pyval -> (W * request) * res result.
  (** A middleware called with a request: it ends with a result, or calls
      [next_call(request)] and goes on with the outcome.
      Simplification: a middleware hands on the request object it has received
      (which it may change). *)
  Inductive mprog :=
  | MDone (s : W * request) (r : res result)
  | MNext (s : W * request) (k : W * request -> res result -> mprog).
  Definition middleware : Type := W * request -> mprog.
  (** A hook: called with a request and, for response hooks, a response. *)
  Inductive hookres := HReq (r : request) | HResp (r : response) | HOther.
  Definition hook : Type := W -> request -> option response -> W * res hookres.

  (** soap.Service, soap.py:39-57 *)
  Record service := mkService {
    sv_version : soapver;
    sv_schemas : list nat;
    sv_methods : list method;
    sv_ih : option string;
    sv_fns : string -> handler }.
  (** SOAPDispatcher, soap_dispatch.py:25-53, after its construction. *)
  Record dispatcher := mkDisp {
    d_service : service;
    d_middlewares : list middleware;
    d_hooks : list (string * hook);
    d_wsdl : string;
    d_xsds : list (option string * string);
    d_strict : bool }.

  Variable P : platform.
  Variable D : dispatcher.
  Let S := d_service D.
  Let V := sv_version S.

  (** ** Preparing a request *)

  (** _parse_soap_content, soap_dispatch.py:61-76 *)
  Definition parse_soap_content (xml : string) : res pyval :=
    match pf_parse P xml with
    | Err e => if is_syntax_error e then Err (SOAPError (code_client V) (exn_message e) None) else Err e
    | Ok x =>
        e <- parse_obj (pf_n P) (pf_O P) (pf_E P) (envelope_cls V) x ;;
        b <- py_get e "Body" ;;
        match b with
        | VNone => Err (SOAPError (code_client V) "Missing SOAP body" None)
        | _ => Ok e
        end
    end.

  (** [etree.QName(body.tag).localname]; QName of a comment or processing
      instruction raises ValueError. *)
  Definition root_tag (x : node) : res string :=
    match x with Elem t _ _ => Ok (local_name t) | _ => Err ValueError end.
  (** [m.input == root_tag] *)
  Definition input_is (name : string) (m : method) : bool :=
    match m_in m with IOName s => String.eqb s name | _ => false end.
  (** The element called [name] of the first of the service's own schemas that
      has one (line 100). *)
  Fixpoint own_element (schemas : list nat) (name : string) : option selement :=
    match schemas with
    | [] => None
    | s :: t => match assoc name (s_elements (pf_G P s)) with Some e => Some e | None => own_element t name end
    end.
  (** [s.split(':')[-1]] *)
  Definition after_colon (s : string) : string := last (str_split ":"%char s) "".

  (** _find_handler_for_request, soap_dispatch.py:78-103 *)
  Definition find_handler (rq : request) (body : node) : res method :=
    let action := determine_soap_action V (rq_environ rq) in
    tag <- root_tag body ;;
    if truthy_str action then
      match find (fun m => match action with Some a => String.eqb (m_action m) a | None => false end) (sv_methods S) with
      | Some m => Ok m
      | None => Err (SOAPError (code_client V)
                       ("Invalid SOAP action: " ++ match action with Some a => a | None => "" end)%string None)
      end
    else
      let invalid := SOAPError (code_client V) ("Missing SOAP action and invalid root tag: " ++ tag)%string None in
      match find (input_is tag) (sv_methods S) with
      | Some m => Ok m
      | None =>
          match own_element (sv_schemas S) tag with
          | None => Err invalid
          | Some e =>
              match sv_methods S, se_subst e with
              | [], _ => Err invalid
              | _, None => Err AttributeError
              | _, Some g =>
                  match find (input_is (after_colon g)) (sv_methods S) with
                  | Some m => Ok m
                  | None => Err invalid
                  end
              end
          end
      end.

  (** _parse_header, soap_dispatch.py:105-112 *)
  Definition parse_header_of (m : method) (soap_header : pyval) : res pyval :=
    match soap_header with
    | VNone => Ok VNone
    | _ =>
        match m_ih m, sv_ih S with
        | Some c, _ => header_parse_as (pf_n P) (pf_O P) (pf_E P) soap_header c
        | None, Some c => header_parse_as (pf_n P) (pf_O P) (pf_E P) soap_header c
        | None, None => Ok VNone
        end
    end.

  (** _parse_input, soap_dispatch.py:114-119 *)
  Definition parse_input (m : method) (message : node) : res pyval :=
    match m_in m with
    | IONone => Err AttributeError
    | IOClass c => parse_obj (pf_n P) (pf_O P) (pf_E P) c message
    | IOName name =>
        e <- find_element_by_name (pf_gn P) (pf_G P) (sv_schemas S) name ;;
        match e with
        | None => Err AttributeError
        | Some e =>
            parse_type (pf_O P) (parse_obj (pf_n P) (pf_O P) (pf_E P)) (se_type e) message
        end
    end.

  (** The namespace of an element, [children.nsmap.get(children.prefix)]. *)
  Definition node_ns (x : node) : option string :=
    match x with
    | Elem t _ _ => match clark_split t with Ok (ns, _) => if String.eqb ns "" then None else Some ns | Err _ => None end
    | _ => None
    end.
  Definition is_wsa (x : node) : bool := match node_ns x with Some ns => String.eqb ns ns_wsa | None => false end.
  (** _validate_header, soap_dispatch.py:129-141 *)
  Definition validate_header (soap_header : pyval) : res unit :=
    match soap_header with
    | VNone => Ok tt
    | _ =>
        x <- py_xmlelement soap_header ;;
        foldM (fun _ c =>
                 if is_wsa c then pf_wsa P c
                 else match pf_valid P c with
                      | Err e => if is_lxml_error e && negb (d_strict D) then Ok tt else Err e
                      | Ok _ => Ok tt
                      end) tt (el_children x)
    end.
  (** _validate_body, _validate_input, soap_dispatch.py:143-148 *)
  Definition validate_body (soap_body : pyval) : res unit :=
    x <- body_content soap_body ;; pf_valid P x.
  Definition validate_input (envelope : pyval) : res unit :=
    h <- py_get envelope "Header" ;;
    validate_header h ;;;
    b <- py_get envelope "Body" ;;
    validate_body b.

  (** _prepare_request, soap_dispatch.py:150-164: the request as it is left, also
      when an exception is raised, and what has been validated. *)
  Definition prepare_request (rq : request) : request * list event * res unit :=
    match (e <- parse_soap_content (rq_content rq) ;;
           h <- py_get e "Header" ;;
           b <- py_get e "Body" ;;
           x <- body_content b ;;
           match validate_input e with
           | Err er => if is_lxml_error er then Err (SOAPError (code_client V) (exn_message er) None) else Err er
           | Ok _ => Ok (h, x)
           end) with
    | Err er => (rq, [], Err er)
    | Ok (h, x) =>
        match find_handler rq x with
        | Err er => (rq, [EValidated x], Err er)
        | Ok m =>
            let rq1 := set_method m rq in
            match parse_header_of m h with
            | Err er => (rq1, [EValidated x], Err er)
            | Ok h' =>
                let rq2 := set_header h' rq1 in
                match parse_input m x with
                | Err er => (rq2, [EValidated x], Err er)
                | Ok b' => (set_rq_body b' rq2, [EValidated x], Ok tt)
                end
            end
        end
    end.

  (** A computation of the dispatcher: from a state and the events so far. *)
  Definition comp : Type := W * request -> list event -> (W * request) * list event * res result.

  (** call_method, soap_dispatch.py:18-21 *)
  Definition call_method : comp := fun s tr =>
    let '(w, rq) := s in
    match prepare_request rq with
    | (rq', ev, Err e) => ((w, rq'), tr ++ ev, Err e)
    | (rq', ev, Ok _) =>
        match rq_method rq' with
        | None => ((w, rq'), tr ++ ev, Err AttributeError)
        | Some m =>
            match m_fn m with
            | None => ((w, rq'), tr ++ ev, Err TypeError)
            | Some f =>
                let '(s', r) := sv_fns S f (w, rq') (rq_body rq') in
                (s', tr ++ ev ++ [ECalled f (rq_body rq')], res_map (fun x => RResp (as_response x)) r)
            end
        end
    end.

  (** [middleware(request, next_call=next)] *)
  Fixpoint run_middleware (next : comp) (p : mprog) (tr : list event) : (W * request) * list event * res result :=
    match p with
    | MDone s r => (s, tr, r)
    | MNext s k => let '(s', tr', r) := next s tr in run_middleware next (k s' r) tr'
    end.
  (** SOAPDispatcher.middleware, soap_dispatch.py:55-59 *)
  Fixpoint stack (l : list middleware) : comp :=
    match l with
    | [] => call_method
    | m :: t => fun s tr => run_middleware (stack t) (m s) tr
    end.

  (** ** Hooks *)

  (** _call_hook for a request, soap_dispatch.py:239-246 *)
  Definition request_hook (name : string) (w : W) (rq : request) : W * res request :=
    match assoc name (d_hooks D) with
    | None => (w, Ok rq)
    | Some h =>
        match h w rq None with
        | (w', Ok (HReq r)) => (w', Ok r)
        | (w', Ok _) => (w', Err (Exn ETypeError "Request hooks must return a SOAPRequest."))
        | (w', Err e) => (w', Err e)
        end
    end.
  Definition response_hook (name : string) (w : W) (rq : request) (rs : response) : W * res response :=
    match assoc name (d_hooks D) with
    | None => (w, Ok rs)
    | Some h =>
        match h w rq (Some rs) with
        | (w', Ok (HResp r)) => (w', Ok r)
        | (w', Ok _) => (w', Err (Exn ETypeError "Response hooks must return a SOAPResponse."))
        | (w', Err e) => (w', Err e)
        end
    end.

  (** ** Requests *)

  Definition set_resp (rs : response) (status : Z) (content : string) : response :=
    mkResp (rs_body rs) (rs_header rs) status (assoc_set "Content-Type" (content_type V) (rs_headers rs)) (Some content).

  (** From the outcome of the middlewares to the response, soap_dispatch.py:185-207. *)
  Definition build_response (rq : request) (r : res result) : res response :=
    r <- (match r with
          | Err (SOAPError c m a) => Ok (RPay (PErr c m a))
          | r => r
          end) ;;
    let rs := as_response r in
    match rs_body rs with
    | PErr c m a =>
        x <- error_response (pf_n P) (pf_O P) (pf_E P) V c m (rs_header rs) None ;;
        Ok (set_resp rs 500 (pf_ser P x))
    | PVal v =>
        m <- (match rq_method rq with Some m => Ok m | None => Err AttributeError end) ;;
        match m_out m with
        | IOName tag =>
            x <- envelope_response (pf_n P) (pf_O P) (pf_E P) V tag v (rs_header rs) ;;
            Ok (set_resp rs (rs_status rs) (pf_ser P x))
        | _ => (* response.content *) Err AttributeError
        end
    end.

  (** handle_soap_request, soap_dispatch.py:180-209 *)
  Definition handle_soap_request (w : W) (rq : request) : W * list event * res response :=
    match request_hook "soap-request" w rq with
    | (w1, Err e) => (w1, [], Err e)
    | (w1, Ok rq1) =>
        let '((w2, rq2), tr, r) := stack (d_middlewares D) (w1, rq1) [] in
        match build_response rq2 r with
        | Err e => (w2, tr, Err e)
        | Ok rs => let '(w3, r3) := response_hook "soap-response" w2 rq2 rs in (w3, tr, r3)
        end
    end.

  (** handle_wsdl_request, soap_dispatch.py:211-219.  [d_wsdl] is the text of the
      bytes; the substitution does not depend on how non-ASCII characters are
      encoded. *)
  Definition wsdl_content (rq : request) : string :=
    let scheme := match rq_environ rq "X_FORWARDED_PROTO" with
                  | Some s => s
                  | None => match rq_environ rq "wsgi.url_scheme" with Some s => s | None => "http" end
                  end in
    let host := rq_environ rq "HTTP_HOST" in
    match truthy_str (Some scheme) && truthy_str host, host with
    | true, Some h => safe_substitute [("scheme", scheme); ("host", h)] (d_wsdl D)
    | _, _ => d_wsdl D
    end.
  Definition handle_wsdl_request (w : W) (rq : request) : W * res response :=
    match request_hook "wsdl-request" w rq with
    | (w1, Err e) => (w1, Err e)
    | (w1, Ok rq1) =>
        response_hook "wsdl-response" w1 rq1
          (new_response (PVal (VStr "wsdl")) VNone 200 (Some (wsdl_content rq1)) [("Content-Type", "text/xml")])
    end.

  (** handle_xsd_request, soap_dispatch.py:221-233: also this one calls the hook
      'wsdl-response'. *)
  Definition handle_xsd_request (w : W) (rq : request) : W * res response :=
    match request_hook "xsd-request" w rq with
    | (w1, Err e) => (w1, Err e)
    | (w1, Ok rq1) =>
        let qs := parse_qsl (match rq_environ rq1 "QUERY_STRING" with Some s => s | None => "" end) in
        let found := match assoc "xsd" qs with
                     | None => None
                     | Some k => loc_get (Some (if String.eqb k "" then "xsd" else k)) (d_xsds D)
                     end in
        let rs := match found with
                  | None => new_response (PVal (VStr "not found")) VNone 404 (Some "not_found") [("Content-Type", "text/plain")]
                  | Some x => new_response (PVal (VStr "xsd")) VNone 200 (Some x) [("Content-Type", "text/xml")]
                  end in
        response_hook "wsdl-response" w1 rq1 rs
    end.

  (** dispatch, soap_dispatch.py:166-178 *)
  Definition dispatch (w : W) (rq : request) : W * list event * res response :=
    let meth := match rq_environ rq "REQUEST_METHOD" with Some s => s | None => "" end in
    let qs := parse_qsl (match rq_environ rq "QUERY_STRING" with Some s => s | None => "" end) in
    if String.eqb meth "GET" && (qs_has "wsdl" qs || qs_has "singleWsdl" qs) then
      let '(w', r) := handle_wsdl_request w rq in (w', [], r)
    else if String.eqb meth "GET" && qs_has "xsd" qs then
      let '(w', r) := handle_xsd_request w rq in (w', [], r)
    else if String.eqb meth "POST" then handle_soap_request w rq
    else (w, [], Ok (new_response (PVal (VStr "bad request")) VNone 400 (Some "bad_request") [("Content-Type", "text/plain")])).

  (** ** The middlewares of middlewares.py *)

  (** ExceptionToSoapFault, middlewares.py:7-21 *)
  Definition exception_to_fault (traceback : bool) : middleware := fun s =>
    MNext s (fun s' r =>
      match r with
      | Ok v => MDone s' (Ok v)
      | Err (SOAPError c m a) => MDone s' (Ok (RPay (PErr c m a)))
      | Err e =>
          if is_Exception e
          then MDone s' (Ok (RPay (PErr (code_server V) (if traceback then pf_traceback P e else exn_message e) None)))
          else MDone s' (Err e)
      end).
  (** ExceptionLogger, middlewares.py:24-40.  [catches] is the isinstance test
      against the tuple of exceptions, [log] the effect of the logger call. *)
  Definition exception_logger (catches : exn -> bool) (log : exn -> W -> W) : middleware := fun s =>
    MNext s (fun s' r =>
      match r with
      | Ok v => MDone s' (Ok v)
      | Err e => if catches e then MDone (log e (fst s'), snd s') (Err e) else MDone s' (Err e)
      end).
End D.
Arguments MDone {W}. Arguments MNext {W}. Arguments mkService {W}. Arguments mkDisp {W}.
Arguments sv_version {W}. Arguments sv_schemas {W}. Arguments sv_methods {W}. Arguments sv_ih {W}. Arguments sv_fns {W}.
Arguments d_service {W}. Arguments d_middlewares {W}. Arguments d_hooks {W}. Arguments d_wsdl {W}. Arguments d_xsds {W}. Arguments d_strict {W}.
Arguments parse_soap_content {W}. Arguments find_handler {W}. Arguments parse_header_of {W}. Arguments parse_input {W}.
Arguments validate_header {W}. Arguments prepare_request {W}. Arguments call_method {W}. Arguments run_middleware {W}.
Arguments stack {W}. Arguments request_hook {W}. Arguments response_hook {W}. Arguments set_resp {W}. Arguments build_response {W}.
Arguments handle_soap_request {W}. Arguments wsdl_content {W}. Arguments handle_wsdl_request {W}. Arguments handle_xsd_request {W}.
Arguments dispatch {W}. Arguments exception_to_fault {W}. Arguments exception_logger {W}.

(** ** Construction *)

(** [re.match(r'(soap|wsdl|xsd)-(request|response)', hook)], soap_dispatch.py:35 *)
Definition hook_name_ok (name : string) : bool :=
  existsb (fun p => String.prefix p name)
    ["soap-request"; "soap-response"; "wsdl-request"; "wsdl-response"; "xsd-request"; "xsd-response"].
(** The loop over the hooks in SOAPDispatcher.__init__, soap_dispatch.py:31-37. *)
Definition check_hooks (names : list string) : res unit :=
  foldM (fun _ n => if hook_name_ok n then Ok tt else Err (Exn EKeyError ("Invalid dispatcher hook name: " ++ n)%string)) tt names.

(** ** Adapters *)

(** http.client.responses of CPython 3.11 *)
Definition http_responses : list (Z * string) :=
  [(100, "Continue"); (101, "Switching Protocols"); (102, "Processing"); (103, "Early Hints"); (200, "OK");
   (201, "Created"); (202, "Accepted"); (203, "Non-Authoritative Information"); (204, "No Content");
   (205, "Reset Content"); (206, "Partial Content"); (207, "Multi-Status"); (208, "Already Reported");
   (226, "IM Used"); (300, "Multiple Choices"); (301, "Moved Permanently"); (302, "Found"); (303, "See Other");
   (304, "Not Modified"); (305, "Use Proxy"); (307, "Temporary Redirect"); (308, "Permanent Redirect");
   (400, "Bad Request"); (401, "Unauthorized"); (402, "Payment Required"); (403, "Forbidden"); (404, "Not Found");
   (405, "Method Not Allowed"); (406, "Not Acceptable"); (407, "Proxy Authentication Required");
   (408, "Request Timeout"); (409, "Conflict"); (410, "Gone"); (411, "Length Required");
   (412, "Precondition Failed"); (413, "Request Entity Too Large"); (414, "Request-URI Too Long");
   (415, "Unsupported Media Type"); (416, "Requested Range Not Satisfiable"); (417, "Expectation Failed");
   (418, "I'm a Teapot"); (421, "Misdirected Request"); (422, "Unprocessable Entity"); (423, "Locked");
   (424, "Failed Dependency"); (425, "Too Early"); (426, "Upgrade Required"); (428, "Precondition Required");
   (429, "Too Many Requests"); (431, "Request Header Fields Too Large"); (451, "Unavailable For Legal Reasons");
   (500, "Internal Server Error"); (501, "Not Implemented"); (502, "Bad Gateway"); (503, "Service Unavailable");
   (504, "Gateway Timeout"); (505, "HTTP Version Not Supported"); (506, "Variant Also Negotiates");
   (507, "Insufficient Storage"); (508, "Loop Detected"); (510, "Not Extended");
   (511, "Network Authentication Required")]%Z.
(** SOAPResponse.http_status_text, core.py:25-28 *)
Definition http_status_text (rs : response) : string :=
  (dec_Z (rs_status rs) ++ " " ++
   match find (fun p => Z.eqb (fst p) (rs_status rs)) http_responses with Some p => snd p | None => "None" end)%string.

(** WsgiSoapApplication.__call__, soap_dispatch.py:253-259.  The result is what
    start_response is called with and the body; [input] is what can be read from
    wsgi.input. *)
Definition wsgi_app {W} (P : platform) (D : dispatcher W) (w : W) (req_env : environ) (input : string)
    : W * list event * res (string * list (string * string) * option string) :=
  match (match req_env "CONTENT_LENGTH" with
         | Some s => if String.eqb s "" then Ok 0%Z else int_of_str s
         | None => Ok 0%Z
         end) with
  | Err e => (w, [], Err e)
  | Ok n =>
      let content := if (n <? 0)%Z then input else substring 0 (Z.to_nat n) input in
      match dispatch P D w (new_request req_env content) with
      | (w', tr, Err e) => (w', tr, Err e)
      | (w', tr, Ok rs) => (w', tr, Ok (http_status_text rs, rs_headers rs, rs_content rs))
      end
  end.

(** DjangoEnvironWrapper.get, django_.py:11-16 *)
Definition django_key (name : string) : string :=
  str_upper (str_map (fun c => if Ascii.eqb c "-" then "_"%char else c) name).
Definition django_environ (e : environ) : environ := fun name =>
  match e (django_key name) with
  | Some v => Some v
  | None => e ("HTTP_" ++ django_key name)%string
  end.
(** django_dispatch and flask_dispatch, django_.py:23-33, flask_.py:10-20: status,
    headers and content of the answer. *)
Definition adapter {W} (P : platform) (D : dispatcher W) (w : W) (e : environ) (content : string)
    : W * list event * res (Z * list (string * string) * option string) :=
  match dispatch P D w (new_request e content) with
  | (w', tr, Err er) => (w', tr, Err er)
  | (w', tr, Ok rs) => (w', tr, Ok (rs_status rs, rs_headers rs, rs_content rs))
  end.
Definition django_dispatch {W} (P : platform) (D : dispatcher W) (w : W) (e : environ) (content : string) :=
  adapter P D w (django_environ e) content.
Definition flask_dispatch {W} (P : platform) (D : dispatcher W) (w : W) (e : environ) (content : string) :=
  adapter P D w e content.

(** How a WSGI server passes on HTTP request headers: Content-Type and
    Content-Length under those names, any other header X-Y as HTTP_X_Y
    (PEP 3333).  [base] holds the other variables. *)
Definition wsgi_key (name : string) : string :=
  let n := django_key name in
  if str_in n ["CONTENT_TYPE"; "CONTENT_LENGTH"] then n else ("HTTP_" ++ n)%string.
Definition wsgi_environ (base : environ) (headers : list (string * string)) : environ := fun key =>
  match find (fun h => String.eqb (wsgi_key (fst h)) key) headers with
  | Some h => Some (snd h)
  | None => base key
  end.
