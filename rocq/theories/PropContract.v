(** C90: the published schema is the contract between client and server. *)
From Coq Require Import String Ascii List ZArith NArith Bool.
From Verif Require Import PyBase PyRe Xml PyVal XsdSimple XsdComplex XsdSchema PyHttp Soap Dispatch Client ExEnv ExSoap LibClasses Py2Xsd Serve
  SpecXsd SpecSchema SpecParse SpecRound SpecTotal SpecSoap SpecHttp SpecDispatch SpecClient SpecValid SpecGiven SpecRead SpecServe SpecContract
  PfClient3 PfContract ExValid ExRead ExContract.
Import ListNotations.
Open Scope nat_scope.
Open Scope string_scope.
Open Scope list_scope.

(** ** C90. Validation never turns away a call of the stub *)
(** The validator is made from the generated XSD document.  A proper object gets
    through it to the function, and the result comes back. *)
Theorem C90_calls :
  forall W P mean G parts (F : full_service W) s (D : dispatcher W), contract P mean G parts F s D ->
  forall Q, good_classes P Q ->
  forall a base op w m f tag c parameter,
  first_with (fun m => m_op m = op) (sv_methods (d_service D)) m -> m_fn m = Some f ->
  m_in m = IOName tag -> message_tag tag -> input_type P D m (TComplex c) -> element_of (pf_E P) s tag c -> proper P Q c parameter ->
  (forall x, envelope_response (pf_n P) (pf_O P) (pf_E P) (sv_version (d_service D)) tag parameter VNone = Ok x -> transmits P x) ->
  routable a (d_service D) base m tag ->
  exists data rq', reaches_handler P D (new_request (seen a base (request_headers (sv_version (d_service D)) (m_action m)) data) data) rq' f /\
    rq_method rq' = Some m /\ erase (rq_body rq') = erase parameter /\
    forall w' rq2 r out hout, sv_fns (d_service D) f (w, rq') (rq_body rq') = ((w', rq2), Ok r) ->
      rq_method rq2 = Some m -> rs_body (as_response r) = PVal out -> rs_header (as_response r) = hout -> returnable P Q D m out hout ->
      exists out' hout', stub_call P (d_service D) (post_through a P D base) w op parameter VNone = (w', Ok (CReturned out' hout')) /\
        erase out' = erase out /\ header_received (m_oh m) hout hout'.
Proof. exact @contract_calls. Qed.
Print Assumptions C90_calls.
(** Nor a valid document of any other client: the function is called, once, with
    what the document says. *)
Theorem C90_accepts :
  forall W P mean G parts (F : full_service W) s (D : dispatcher W), contract P mean G parts F s D ->
  forall rq x m f tag c, reads_numbers (pf_O P) -> schema_readable (pf_O P) (pf_E P) G s ->
  request_method rq "POST" -> carries P D rq VNone x -> valid mean (xsd_document (pf_O P) (pf_E P) G s) x ->
  el_tag x = clark (gs_tns s) tag -> ncname_ok tag = true ->
  spelled (pf_E P) s (TComplex c) x -> height x < pf_n P -> input_type P D m (TComplex c) -> element_of (pf_E P) s tag c -> m_fn m = Some f ->
  (exists act, has_action D rq act /\ first_with (fun m => m_action m = act) (sv_methods (d_service D)) m) \/
  (no_action D rq /\ first_with (fun m => m_in m = IOName tag) (sv_methods (d_service D)) m) ->
  exists rq', reaches_handler P D rq rq' f /\ rq_method rq' = Some m /\ says (pf_O P) (pf_E P) s (TComplex c) x (rq_body rq') /\
    forall w st r, sv_fns (d_service D) f (w, rq') (rq_body rq') = (st, r) ->
      exists x' r', dispatch P D w rq = (fst st, [EValidated x'; ECalled f (rq_body rq')], r').
Proof. exact @contract_accepts. Qed.
Print Assumptions C90_accepts.
(** What the server answers is valid against the published schema as well. *)
Theorem C90_answers :
  forall W P mean G parts (F : full_service W) s (D : dispatcher W), contract P mean G parts F s D ->
  forall Q, good_classes P Q ->
  forall w rq rq' f m tag c out w', request_method rq "POST" -> reaches_handler P D rq rq' f -> m_out m = IOName tag -> message_tag tag ->
  element_of (pf_E P) s tag c -> proper P Q c out ->
  (exists rq2, sv_fns (d_service D) f (w, rq') (rq_body rq') = ((w', rq2), Ok (RPay (PVal out))) /\ rq_method rq2 = Some m) ->
  exists tr rs y, dispatch P D w rq = (w', tr, Ok rs) /\ rs_status rs = 200%Z /\
    rs_content rs = Some (pf_ser P (soap_envelope (soap_ns (sv_version (d_service D))) [] [y])) /\
    forall y', layout (wire y) y' -> valid mean (xsd_document (pf_O P) (pf_E P) G s) y'.
Proof. exact @contract_answers. Qed.
Print Assumptions C90_answers.

(** In the example the validator accepts exactly the elements of the schema. *)
Example C90_nonvacuous :
  contract c_P v_mean c_decls (fun _ => c_schema) c_service c_schema c_D /\ good_classes c_P call_classes /\
  (first_with (fun m => m_op m = "Echo") (sv_methods (d_service c_D)) echo_method /\ m_fn echo_method = Some "echo" /\
   m_in echo_method = IOName "echoRequest" /\ message_tag "echoRequest" /\ input_type c_P c_D echo_method (TComplex "EchoRequest") /\
   element_of (pf_E c_P) c_schema "echoRequest" "EchoRequest" /\ proper c_P call_classes "EchoRequest" (request_of "hi") /\
   (forall x, envelope_response (pf_n c_P) (pf_O c_P) (pf_E c_P) V12 "echoRequest" (request_of "hi") VNone = Ok x -> transmits c_P x) /\
   routable Django (d_service c_D) (fun _ => None) echo_method "echoRequest") /\
  reads_numbers (pf_O c_P) /\ schema_readable (pf_O c_P) (pf_E c_P) c_decls c_schema /\
  (request_method (c_request "echoRequest" "hi") "POST" /\ carries c_P c_D (c_request "echoRequest" "hi") VNone (c_xml "echoRequest" "hi") /\
   valid v_mean (xsd_document r_oracle call_env c_decls c_schema) (c_xml "echoRequest" "hi") /\
   spelled call_env c_schema (TComplex "EchoRequest") (c_xml "echoRequest" "hi") /\ height (c_xml "echoRequest" "hi") < pf_n c_P /\
   exists act, has_action c_D (c_request "echoRequest" "hi") act /\ first_with (fun m => m_action m = act) (sv_methods (d_service c_D)) echo_method) /\
  element_of (pf_E c_P) c_schema "echoResponse" "EchoResponse" /\ proper c_P call_classes "EchoResponse" (response_of "hi") /\
  match dispatch c_P c_D [] (c_request "echoRequest" "hi") with (["hi"], [EValidated _; ECalled "echo" _], Ok rs) => rs_status rs = 200%Z | _ => False end /\
  match dispatch c_P c_D [] (c_request "other" "hi") with ([], _, Ok rs) => rs_status rs = 500%Z | _ => False end.
Proof.
  split; [exact c_contract|]. split; [exact c_good|]. split; [exact (c_calls Django)|]. split; [exact r_numbers|]. split; [exact c_schema_readable|]. split; [exact c_accepts|].
  split; [split; [eexists; split; [right; now left|reflexivity]|do 2 eexists; repeat split]|]. split; [eapply c_proper; try reflexivity; try discriminate; cbn; auto|].
  split; vm_compute; reflexivity.
Qed.
