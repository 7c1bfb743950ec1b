(** C90, continued: SOAP headers under the published schema. *)
From Coq Require Import String Ascii List ZArith Bool.
From Verif Require Import PyBase PyRe Xml PyVal XsdSimple XsdComplex XsdSchema PyHttp Soap Dispatch Client ExSoap Py2Xsd Serve
  SpecXsd SpecParse SpecRound SpecSoap SpecHttp SpecDispatch SpecClient SpecValid SpecGiven SpecRead SpecContract SpecContract2 PfClient3 ExValid ExRead PfContract2 ExContract ExContract2.
Import ListNotations.
Open Scope nat_scope.
Open Scope string_scope.
Open Scope list_scope.

(** Calls with a header work, in both directions, if the dispatcher was made with
    strict_soap_header=False. *)
Theorem C90_header_calls_partial :
  forall W P mean G parts (F : full_service W) s (D : dispatcher W), contract P mean G parts F s D ->
  forall Q, good_classes P Q ->
  forall a base op w m f tag c parameter header, d_strict D = false -> fails_as_lxml P ->
  first_with (fun m => m_op m = op) (sv_methods (d_service D)) m -> m_fn m = Some f ->
  m_in m = IOName tag -> message_tag tag -> input_type P D m (TComplex c) -> element_of (pf_E P) s tag c -> proper P Q c parameter ->
  header_for P Q (server_header (d_service D) m) header -> plain_header P header ->
  (forall x, envelope_response (pf_n P) (pf_O P) (pf_E P) (sv_version (d_service D)) tag parameter header = Ok x -> transmits P x) ->
  routable a (d_service D) base m tag ->
  exists data rq', reaches_handler P D (new_request (seen a base (request_headers (sv_version (d_service D)) (m_action m)) data) data) rq' f /\
    rq_method rq' = Some m /\ erase (rq_body rq') = erase parameter /\ header_received (server_header (d_service D) m) header (rq_header rq') /\
    forall w' rq2 r out hout, sv_fns (d_service D) f (w, rq') (rq_body rq') = ((w', rq2), Ok r) ->
      rq_method rq2 = Some m -> rs_body (as_response r) = PVal out -> rs_header (as_response r) = hout -> returnable P Q D m out hout ->
      exists out' hout', stub_call P (d_service D) (post_through a P D base) w op parameter header = (w', Ok (CReturned out' hout')) /\
        erase out' = erase out /\ header_received (m_oh m) hout hout'.
Proof. exact @header_calls. Qed.
Print Assumptions C90_header_calls_partial.

(** With the default, strict_soap_header=True, they do not: whatever is declared in
    the schema, the request of a call with at least one header block runs no
    function, because the client puts the blocks into the namespace of the
    envelope (C67), where the schema declares nothing. *)
Theorem C90_header_calls_refuted :
  forall W P mean G parts (F : full_service W) s (D : dispatcher W), contract P mean G parts F s D ->
  forall Q, good_classes P Q ->
  forall a base w m f tag c parameter header x,
  d_strict D = true -> rejects_foreign P (gs_tns s) -> gs_tns s <> soap_ns (sv_version (d_service D)) ->
  m_fn m = Some f -> m_in m = IOName tag -> message_tag tag -> element_of (pf_E P) s tag c -> proper P Q c parameter ->
  header_for P Q (server_header (d_service D) m) header -> plain_header P header -> header <> VNone ->
  envelope_response (pf_n P) (pf_O P) (pf_E P) (sv_version (d_service D)) tag parameter header = Ok x -> transmits P x -> 2 <= length (blocks x) ->
  exists data, stub_request P (d_service D) m parameter header = Ok (request_headers (sv_version (d_service D)) (m_action m), data) /\
    forall w' tr r, dispatch P D w (new_request (seen a base (request_headers (sv_version (d_service D)) (m_action m)) data) data) = (w', tr, r) ->
      calls tr = 0 /\ w' = w.
Proof. exact @header_refused. Qed.
Print Assumptions C90_header_calls_refuted.

(** The same service, call and header; only the strictness differs. *)
Example C90_header_nonvacuous :
  (forall strict, contract h_P v_mean c_decls (fun _ => c_schema) h_service c_schema (h_D strict)) /\ good_classes h_P call_classes /\
  fails_as_lxml h_P /\ rejects_foreign h_P (gs_tns c_schema) /\
  (forall strict a,
    first_with (fun m => m_op m = "Echo") (sv_methods (d_service (h_D strict))) call_method_ /\ m_fn call_method_ = Some "echo" /\
    m_in call_method_ = IOName "echoRequest" /\ message_tag "echoRequest" /\ input_type h_P (h_D strict) call_method_ (TComplex "EchoRequest") /\
    element_of (pf_E h_P) c_schema "echoRequest" "EchoRequest" /\ proper h_P call_classes "EchoRequest" (request_of "hi") /\
    header_for h_P call_classes (server_header (d_service (h_D strict)) call_method_) (token_of "you") /\ plain_header h_P (token_of "you") /\
    (forall x, envelope_response (pf_n h_P) (pf_O h_P) (pf_E h_P) V12 "echoRequest" (request_of "hi") (token_of "you") = Ok x -> transmits h_P x /\ 2 <= length (blocks x)) /\
    routable a (d_service (h_D strict)) (fun _ => None) call_method_ "echoRequest") /\
  returnable h_P call_classes (h_D false) call_method_ (response_of "hi") (token_of "me") /\
  (exists b h, stub_call h_P call_service (post_through Django h_P (h_D false) (fun _ => None)) [] "Echo" (request_of "hi") (token_of "you") = (["hi"], Ok (CReturned b h)) /\
     erase b = response_of "hi" /\ erase h = token_of "me") /\
  stub_call h_P call_service (post_through Django h_P (h_D true) (fun _ => None)) [] "Echo" (request_of "hi") (token_of "you")
    = ([], Ok (CRaised (VStr "ns0:Sender") (VStr "DocumentInvalid: no such element") VNone)).
Proof.
  split; [exact h_contract|]. split; [exact c_good|]. split; [exact h_lxml|]. split; [exact h_foreign|]. split; [exact h_sent|]. split; [exact (h_returnable false)|].
  split; [do 2 eexists; split; [vm_compute; reflexivity|split; reflexivity]|vm_compute; reflexivity].
Qed.
