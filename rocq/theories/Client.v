(** The client: Service.get_method and Stub (/repo/soapfish/soap.py:58-59,
    80-140), with utils.uncapitalize (/repo/soapfish/utils.py:44-45). *)
From Coq Require Import String Ascii List ZArith NArith Bool.
From Verif Require Import PyBase Xml PyVal XsdSimple XsdComplex XsdSchema PyHttp Soap Dispatch.
Import ListNotations.
Open Scope string_scope.
Open Scope list_scope.

(** utils.uncapitalize, utils.py:44-45 *)
Definition uncapitalize (value : string) : res string :=
  if String.eqb value "QName" then Ok value
  else match value with
       | "" => Err IndexError
       | String c t => Ok (String (lower_char c) t)
       end.

(** [v.__class__.__name__].  Simplification: a class of the user is named by its
    key in the environment; for anything but an object the name does not matter,
    as rendering it fails afterwards. *)
Definition class_name (v : pyval) : string :=
  match v with VObj c _ _ => c | _ => "object" end.

(** Service.get_method, soap.py:58-59: [next] of a generator that is exhausted
    raises StopIteration. *)
Definition get_method (methods : list method) (operation : string) : res method :=
  match find (fun m => String.eqb (m_op m) operation) methods with
  | Some m => Ok m
  | None => Err (Exn EStopIteration "")
  end.

(** What Stub.call ends with: a SOAPResponse (body and header) or the SOAPError
    made from a fault (its attributes are whatever was read). *)
Inductive outcome :=
| CReturned (body header : pyval)
| CRaised (code message actor : pyval).

Section C.
  Variable W : Type.
  Variable P : platform.
  Variable S : service W.
  Let V := sv_version S.

  (** The tag of the request, soap.py:128 *)
  Definition request_tag (m : method) (parameter : pyval) : res string :=
    match m_in m with
    | IOName s => Ok s
    | _ => uncapitalize (class_name parameter)
    end.

  (** Data and headers of the request, soap.py:126-132 *)
  Definition stub_request (m : method) (parameter header : pyval) : res (list (string * string) * string) :=
    tag <- request_tag m parameter ;;
    x <- envelope_response (pf_n P) (pf_O P) (pf_E P) V tag parameter header ;;
    Ok (request_headers V (m_action m), pf_ser P x).

  (** The type the body is read as, soap.py:117-120.  When [output] is None,
      getting parse_xmlelement from it is an AttributeError. *)
  Definition output_type (m : method) : res ftype :=
    match m_out m with
    | IOName name =>
        e <- find_element_by_name (pf_gn P) (pf_G P) (sv_schemas S) name ;;
        match e with
        | None => Err AttributeError
        | Some e => Ok (se_type e)
        end
    | IOClass c => Ok (TComplex c)
    | IONone => Err AttributeError
    end.

  (** Body.parse_as with that class, soap11.py:59-60, soap.py:122.
      parse_xmlelement of the class of a simple type is an instance method:
      calling it with the element as only argument is a TypeError. *)
  Definition parse_output (body : pyval) (t : ftype) : res pyval :=
    match t with
    | TComplex c => body_parse_as (pf_n P) (pf_O P) (pf_E P) body c
    | TSimple _ => body_content body ;;; Err TypeError
    end.

  (** Stub._handle_response, soap.py:103-123.  [if envelope.Header]: an object and
      NIL are true. *)
  Definition handle_response (m : method) (content : string) : res outcome :=
    doc <- pf_parse P content ;;
    e <- parse_obj (pf_n P) (pf_O P) (pf_E P) (envelope_cls V) doc ;;
    h <- py_get e "Header" ;;
    h' <- match h, m_oh m with
          | VNone, _ => Ok VNone
          | _, None => Ok VNone
          | _, Some c => header_parse_as (pf_n P) (pf_O P) (pf_E P) h c
          end ;;
    b <- py_get e "Body" ;;
    f <- py_get b "Fault" ;;
    match f with
    | VNone => t <- output_type m ;; r <- parse_output b t ;; Ok (CReturned r h')
    | _ => p <- parse_fault_message V f ;; let '(code, message, actor) := p in Ok (CRaised code message actor)
    end.

  (** requests.post: sends headers and data to the location of the stub and gives
      back the content of the answer, whatever its status. *)
  Variable T : Type.
  Definition transport : Type := T -> list (string * string) -> string -> T * res string.

  (** Stub.call, soap.py:125-140.  The location and the credentials are part of
      the transport. *)
  Definition stub_call (post : transport) (w : T) (operation : string) (parameter header : pyval) : T * res outcome :=
    match get_method (sv_methods S) operation with
    | Err e => (w, Err e)
    | Ok m =>
        match stub_request m parameter header with
        | Err e => (w, Err e)
        | Ok (headers, data) =>
            match post w headers data with
            | (w', Err e) => (w', Err e)
            | (w', Ok content) => (w', handle_response m content)
            end
        end
    end.
End C.
Arguments stub_request {W}. Arguments output_type {W}. Arguments handle_response {W}. Arguments stub_call {W} P S {T}.

(** ** Transports for the properties *)

(** The variables of a POST request with these headers and data in a WSGI server. *)
Definition post_environ (base : environ) (headers : list (string * string)) (data : string) : environ := fun key =>
  if String.eqb key "REQUEST_METHOD" then Some "POST"
  else if String.eqb key "CONTENT_LENGTH" then Some (dec_Z (Z.of_nat (String.length data)))
  else wsgi_environ base headers key.

(** A server that runs the dispatcher as a WSGI application, or under Django, or
    under Flask, on the machine of the client.  Simplification: what the
    application raises is raised at the client. *)
Definition answer (r : res (option string)) : res string :=
  o <- r ;; match o with Some s => Ok s | None => Err TypeError end.
Definition wsgi_post {W} (P : platform) (D : dispatcher W) (base : environ) : transport W := fun w headers data =>
  let '(w', _, r) := wsgi_app P D w (post_environ base headers data) data in
  (w', answer (res_map snd r)).
Definition django_post {W} (P : platform) (D : dispatcher W) (base : environ) : transport W := fun w headers data =>
  let '(w', _, r) := django_dispatch P D w (post_environ base headers data) data in
  (w', answer (res_map snd r)).
Definition flask_post {W} (P : platform) (D : dispatcher W) (base : environ) : transport W := fun w headers data =>
  let '(w', _, r) := flask_dispatch P D w (post_environ base headers data) data in
  (w', answer (res_map snd r)).
