(** C51, C52, C67: calls through the client. *)
From Coq Require Import String Ascii List ZArith NArith Bool.
From Verif Require Import PyBase Xml PyVal XsdSimple XsdComplex XsdSchema PyHttp Soap Dispatch Client
  SpecParse SpecRender SpecRound SpecSoap SpecDispatch SpecHttp SpecClient PfClient3 ExEnv ExSoap.
Import ListNotations.
Open Scope nat_scope.
Open Scope string_scope.
Open Scope list_scope.

(** ** C51 *)
(** A call that can work reaches the handler of the method with an equal body
    and header.  If the handler then returns an object that can be sent, the
    call returns an equal one; if it raises or returns a SOAPError, the call
    raises one with the same code and message. *)
Theorem C51_call_partial :
  forall (W : Type) P Q (D : dispatcher W) a base op w m f tag parameter header,
  soap_platform P -> good_classes P Q -> plain D -> callable P Q D a base op m f tag parameter header ->
  exists data rq', reaches_handler P D (new_request (seen a base (request_headers (sv_version (d_service D)) (m_action m)) data) data) rq' f /\
    rq_method rq' = Some m /\ erase (rq_body rq') = erase parameter /\ header_received (server_header (d_service D) m) header (rq_header rq') /\
    (forall w' rq2 r out hout, sv_fns (d_service D) f (w, rq') (rq_body rq') = ((w', rq2), Ok r) ->
       rq_method rq2 = Some m -> rs_body (as_response r) = PVal out -> rs_header (as_response r) = hout ->
       returnable P Q D m out hout ->
       exists out' hout', stub_call P (d_service D) (post_through a P D base) w op parameter header = (w', Ok (CReturned out' hout')) /\
         erase out' = erase out /\ header_received (m_oh m) hout hout') /\
    (forall w' rq2 r code msg actor hout, sv_fns (d_service D) f (w, rq') (rq_body rq') = ((w', rq2), r) ->
       r = Err (SOAPError code msg actor) /\ hout = VNone \/
       (exists p, r = Ok p /\ rs_body (as_response p) = PErr code msg actor /\ rs_header (as_response p) = hout) ->
       text_good code -> text_good msg -> header_for P Q (m_oh m) hout ->
       (forall x, error_response (pf_n P) (pf_O P) (pf_E P) (sv_version (d_service D)) code msg hout None = Ok x -> transmits P x) ->
       stub_call P (d_service D) (post_through a P D base) w op parameter header = (w', Ok (CRaised (VStr code) (VStr msg) VNone))).
Proof. exact @call_works. Qed.
Print Assumptions C51_call_partial.
(** Where the output of the method is a class instead of the name of an element,
    every call fails after the handler has run. *)
Theorem C51_class_output_refuted :
  forall (W : Type) P Q (D : dispatcher W) a base op w m f tag parameter header c,
  soap_platform P -> good_classes P Q -> plain D -> callable P Q D a base op m f tag parameter header -> m_out m = IOClass c ->
  exists data rq', reaches_handler P D (new_request (seen a base (request_headers (sv_version (d_service D)) (m_action m)) data) data) rq' f /\
    forall w' rq2 r out, sv_fns (d_service D) f (w, rq') (rq_body rq') = ((w', rq2), Ok r) ->
       rq_method rq2 = Some m -> rs_body (as_response r) = PVal out ->
       stub_call P (d_service D) (post_through a P D base) w op parameter header = (w', Err AttributeError).
Proof. exact @class_output. Qed.
Print Assumptions C51_class_output_refuted.
(** SOAP 1.1 under WSGI or Flask: if the inputs of all methods are classes, no
    request of the client runs a handler. *)
Theorem C51_soap11_class_input_refuted :
  forall (W : Type) P (D : dispatcher W) a base w action data w' tr r, plain D -> sv_version (d_service D) = V11 ->
  a <> Django -> clean_environ base -> (forall m, In m (sv_methods (d_service D)) -> exists c, m_in m = IOClass c) ->
  dispatch P D w (new_request (seen a base (request_headers V11 action) data) data) = (w', tr, r) -> calls tr = 0%nat.
Proof. exact @class_input. Qed.
Print Assumptions C51_soap11_class_input_refuted.

(** The call meets the hypotheses, and what comes back, for a result and a fault. *)
Example C51_nonvacuous :
  soap_platform call_P /\ good_classes call_P call_classes /\ plain call_D /\
  (forall a s, s = "hi" \/ s = "boom" ->
     callable call_P call_classes call_D a (fun _ => None) "Echo" call_method_ "echo" "echoRequest" (request_of s) (token_of "you")) /\
  returnable call_P call_classes call_D call_method_ (response_of "hi") (token_of "me") /\
  (forall a, exists b h, stub_call call_P call_service (post_through a call_P call_D (fun _ => None)) [] "Echo" (request_of "hi") (token_of "you") =
     (["hi"], Ok (CReturned b h)) /\ erase b = response_of "hi" /\ erase h = token_of "me") /\
  (forall a, stub_call call_P call_service (post_through a call_P call_D (fun _ => None)) [] "Echo" (request_of "boom") (token_of "you") =
     ([], Ok (CRaised (VStr "Server") (VStr "it blew up") VNone))).
Proof.
  split; [exact call_platform|]. split; [exact call_rt_classes|]. split; [split; reflexivity|].
  split; [exact (fun a => call_callable a)|]. split; [exact call_returnable|]. split.
  - intros a. destruct a; eexists; eexists; (split; [vm_compute; reflexivity|split; vm_compute; reflexivity]).
  - intros a. destruct a; vm_compute; reflexivity.
Qed.

(** ** C52 *)
(** The header of a call reaches the handler as an equal object of the class the
    method, or else the service, declares. *)
Theorem C52_headers_partial :
  forall (W : Type) P Q (D : dispatcher W) a base op m f tag parameter header c,
  soap_platform P -> good_classes P Q -> callable P Q D a base op m f tag parameter header ->
  server_header (d_service D) m = Some c ->
  exists headers data rq', stub_request P (d_service D) m parameter header = Ok (headers, data) /\
    reaches_handler P D (new_request (seen a base headers data) data) rq' f /\
    erase (rq_header rq') = erase header.
Proof. exact @call_headers. Qed.
Print Assumptions C52_headers_partial.
(** A header of a class without a schema cannot be sent. *)
Theorem C52_no_schema_refuted :
  forall (W T : Type) P Q (S : service W) (post : transport T) w op m tag parameter c ch xe fs d,
  soap_platform P -> get_method (sv_methods S) op = Ok m -> tagged_with m parameter tag -> message P Q c parameter ->
  e_cls (pf_E P) ch = Some d -> cd_schema d = None ->
  stub_call P S post w op parameter (VObj ch xe fs) = (w, Err AttributeError).
Proof. exact @header_no_schema. Qed.
Print Assumptions C52_no_schema_refuted.
Example C52_nonvacuous : server_header call_service call_method_ = Some "Token" /\
  message call_P call_classes "Token" (token_of "you").
Proof. split; [reflexivity|apply call_token; [discriminate|reflexivity]]. Qed.

(** ** C67 *)
(** Whatever the schema of the class of a header: its blocks get the namespace
    of the SOAP envelope. *)
Theorem C67_header_namespace_refuted :
  forall O U lim n v ci xei fsi di si c xe fs d sh tag x,
  e_cls (soap_env U lim) ci = Some di -> cd_schema di = Some si -> In "ComplexType" (cd_mro di) ->
  e_cls (soap_env U lim) c = Some d -> cd_schema d = Some sh -> Forall simple_field (cd_fields d) ->
  envelope_response (2 + n) O (soap_env U lim) v tag (VObj ci xei fsi) (VObj c xe fs) = Ok x ->
  exists ks b, x = soap_envelope (soap_ns v) [Elem (clark (soap_ns v) "Header") [] ks] [b] /\
    forall y, In y ks -> exists f ay ky, In f (cd_fields d) /\ y = Elem (clark (soap_ns v) (f_name f)) ay ky.
Proof. exact header_blocks. Qed.
Print Assumptions C67_header_namespace_refuted.
(** The class of the header has the namespace urn:echo. *)
Example C67_nonvacuous :
  option_map cd_schema (e_cls call_env "Token") = Some (Some echo_si) /\
  Forall simple_field [s_elem "user" string_type 1 false None] /\
  envelope_response 8 ex_oracle call_env V12 "echoRequest" (request_of "hi") (token_of "you") = Ok (call_doc "echoRequest" "hi" "you") /\
  call_doc "echoRequest" "hi" "you" =
    soap_envelope (soap_ns V12)
      [Elem (clark (soap_ns V12) "Header") [] [Elem (clark (soap_ns V12) "user") [] [Text "you"]]]
      [Elem (clark "urn:echo" "echoRequest") [] [Elem (clark "urn:echo" "value") [] [Text "hi"]]].
Proof. split; [reflexivity|]. split; [repeat constructor; discriminate|]. split; vm_compute; reflexivity. Qed.
