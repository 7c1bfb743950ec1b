(** C93: envelopes of other implementations of SOAP. *)
From Coq Require Import String Ascii List ZArith NArith Bool.
From Verif Require Import PyBase Xml PyVal XsdSimple XsdComplex XsdSchema PyHttp Soap Dispatch Client SpecSoap SpecDispatch SpecEnvelope
  PfEnvelope2 ExEnv ExSoap ExEnvelope.
Import ListNotations.
Open Scope string_scope.
Open Scope list_scope.

(** Whatever attributes, texts, comments and other elements there are: the
    dispatcher finds the Header and, in the Body, the message, and no other. *)
Theorem C93_request_partial :
  forall W P (D : dispatcher W) rq doc header body x, soap_platform P -> pf_parse P (rq_content rq) = Ok doc ->
  envelope_of doc header body -> message_of body x ->
  (exists h, carries P D rq h x /\ header_from header h) /\
  forall h x', carries P D rq h x' -> x' = x /\ header_from header h.
Proof. exact envelope_read. Qed.
Print Assumptions C93_request_partial.
(** So two requests that differ in nothing but the envelope run the same function
    with the same arguments. *)
Theorem C93_same_call_partial :
  forall W P (D : dispatcher W) rq rq2 rq' f doc doc2 header body body2 x, soap_platform P ->
  pf_parse P (rq_content rq) = Ok doc -> envelope_of doc header body -> message_of body x ->
  pf_parse P (rq_content rq2) = Ok doc2 -> envelope_of doc2 header body2 -> message_of body2 x ->
  rq_environ rq2 = rq_environ rq -> reaches_handler P D rq rq' f ->
  exists rq2', reaches_handler P D rq2 rq2' f /\ rq_body rq2' = rq_body rq' /\ rq_method rq2' = rq_method rq' /\ rq_header rq2' = rq_header rq'.
Proof. exact same_call. Qed.
Print Assumptions C93_same_call_partial.
(** The client reads the result from any such envelope, whoever wrote it, *)
Theorem C93_reply_partial :
  forall W T P (S : service W) (post : transport T) w w' op m parameter header hs data content doc hd body x name e c r h,
  soap_platform P -> first_with (fun m => m_op m = op) (sv_methods S) m -> stub_request P S m parameter header = Ok (hs, data) ->
  post w hs data = (w', Ok content) -> pf_parse P content = Ok doc -> envelope_of doc hd body -> message_of body x ->
  m_out m = IOName name -> find_element_by_name (pf_gn P) (pf_G P) (sv_schemas S) name = Ok (Some e) -> se_type e = TComplex c ->
  parse_obj (pf_n P) (pf_O P) (pf_E P) c x = Ok r -> reply_header (pf_n P) (pf_O P) (pf_E P) (m_oh m) hd h ->
  stub_call P S post w op parameter header = (w', Ok (CReturned r h)).
Proof. exact reply_read. Qed.
Print Assumptions C93_reply_partial.
(** and raises the fault that is in it: code, message and actor, in any order and
    with any details besides. *)
Theorem C93_fault_partial :
  forall W T P (S : service W) (post : transport T) w w' op m parameter header hs data content doc hd body code message actor h,
  soap_platform P -> first_with (fun m => m_op m = op) (sv_methods S) m -> stub_request P S m parameter header = Ok (hs, data) ->
  post w hs data = (w', Ok content) -> pf_parse P content = Ok doc -> envelope_of doc hd body ->
  fault_in (sv_version S) body code message actor -> reply_header (pf_n P) (pf_O P) (pf_E P) (m_oh m) hd h ->
  stub_call P S post w op parameter header =
  (w', Ok (CRaised (VStr code) (VStr message) (match actor with Some a => VStr a | None => VNone end))).
Proof. exact fault_read. Qed.
Print Assumptions C93_fault_partial.
(** But the namespace is not looked at: an envelope of the other version of SOAP
    runs the function too (there should be a VersionMismatch fault). *)
Theorem C93_version_refuted :
  forall W P (D : dispatcher W) rq rq2 rq' f v t a k, soap_platform P -> local_name t <> "message" -> local_name t <> "Fault" ->
  pf_parse P (rq_content rq) = Ok (soap_envelope (soap_ns (sv_version (d_service D))) [] [Elem t a k]) ->
  pf_parse P (rq_content rq2) = Ok (soap_envelope (soap_ns v) [] [Elem t a k]) ->
  rq_environ rq2 = rq_environ rq -> reaches_handler P D rq rq' f ->
  exists rq2', reaches_handler P D rq2 rq2' f /\ rq_body rq2' = rq_body rq'.
Proof. exact any_version. Qed.
Print Assumptions C93_version_refuted.
(** And a block that says mustUnderstand is ignored, when no schema knows it and
    the dispatcher is not strict, as any other. *)
Theorem C93_must_understand_refuted :
  forall W P (D : dispatcher W) rq rq2 rq' f m doc doc2 body body2 x y block e, soap_platform P -> d_strict D = false ->
  pf_parse P (rq_content rq) = Ok doc -> envelope_of doc None body -> message_of body x ->
  pf_parse P (rq_content rq2) = Ok doc2 -> envelope_of doc2 (Some y) body2 -> message_of body2 x ->
  el_children y = [block] -> assoc (clark (soap_ns (sv_version (d_service D))) "mustUnderstand") (el_attrs block) = Some "1" ->
  ~ wsa_block block -> pf_valid P block = Err e -> lxml_failure e ->
  rq_environ rq2 = rq_environ rq -> reaches_handler P D rq rq' f ->
  rq_method rq' = Some m -> m_ih m = None -> sv_ih (d_service D) = None ->
  exists rq2', reaches_handler P D rq2 rq2' f /\ rq_body rq2' = rq_body rq' /\ rq_header rq2' = VNone.
Proof. exact not_understood. Qed.
Print Assumptions C93_must_understand_refuted.

Example C93_nonvacuous :
  soap_platform v_P /\ (forall v, envelope_of (v_doc v []) None v_body /\ envelope_of (v_doc v [v_header]) (Some v_header) v_body /\ message_of v_body v_message) /\
  pf_parse v_P "noisy" = Ok (v_doc V11 []) /\ pf_parse v_P "header" = Ok (v_doc V11 [v_header]) /\
  (exists rq', reaches_handler v_P v_D (v_post "hello") rq' "echo" /\ rq_method rq' = Some echo_method) /\
  el_children v_header = [v_block] /\ ~ wsa_block v_block /\ pf_valid v_P v_block = Err (Exn EDocumentInvalid "no declaration") /\
  (fault_in V11 (Elem (clark (soap_ns V11) "Body") [] [Text " "; v_fault V11]) "q:Server" "no" None /\
   fault_in V12 (Elem (clark (soap_ns V12) "Body") [] [v_fault V12]) "q:Receiver" "nein" (Some "urn:r")) /\
  (forall content, In content ["hello"; "soap12"; "noisy"; "header"] ->
     match dispatch v_P v_D [] (v_post content) with (w, _, Ok rs) => w = ["hello"] /\ rs_status rs = 200%Z | _ => False end) /\
  match stub_call v_P echo_service (v_peer "reply") tt "Echo" (VObj "EchoRequest" None [("value", VStr "hello")]) VNone with
  | (_, Ok (CReturned (VObj _ _ fs) h)) => fs = [("value", VStr "hello")] /\ h = VNone
  | _ => False
  end /\
  stub_call v_P echo_service (v_peer "fault") tt "Echo" (VObj "EchoRequest" None [("value", VStr "hello")]) VNone =
  (tt, Ok (CRaised (VStr "q:Server") (VStr "no") VNone)).
Proof.
  split; [exact v_platform|]. split; [exact v_envelope|]. split; [reflexivity|]. split; [reflexivity|]. split; [exact v_reaches|].
  split; [reflexivity|]. split; [exact v_not_wsa|]. split; [reflexivity|]. split; [exact v_faults|].
  split; [|split; [vm_compute; now split|vm_compute; reflexivity]].
  intros content H. cbn in H. repeat destruct H as [<- | H]; try destruct H; vm_compute; now split.
Qed.
