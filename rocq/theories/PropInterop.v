(** C75: a client and a server generated from the same WSDL document. *)
From Coq Require Import String Ascii List ZArith NArith Bool.
From Verif Require Import PyBase PfBase Xml PyVal XsdSimple XsdComplex XsdSchema PyHttp ExEnv LibClasses Py2Xsd XsdMeta Dispatch Soap Client Py2Wsdl Xsd2Py PyLoad
  ExGenCode PyUrl Wsdl2Py PyService PyInterop SpecGenCode SpecParse SpecRound SpecSoap SpecDispatch SpecHttp SpecClient SpecUrl SpecService SpecInterop ExSoap PfClient3 ExService
  PfInterop ExInterop.
Import ListNotations.
Open Scope nat_scope.
Open Scope string_scope.
Open Scope list_scope.

(** Calling an operation of the generated client, with the generated server on
    the other side, runs the user's function named after the operation on a
    parameter equal to the one given, and returns an object equal to its result, or
    raises the SOAPError that it raised. *)
Theorem C75_call_partial :
  forall n O L md5 checked rt base root d tns schemas elsc elss plan stc sts stc' sts' p,
  parse_obj n O L (wn (version_from_xml root) "Definitions") root = Ok d ->
  states_document d tns schemas plan -> quotable tns -> (forall s, In s schemas -> hex5 (md5 s)) ->
  schemas_bound md5 stc schemas elsc -> schemas_bound md5 sts schemas elss ->
  Forall usable_port (soap_ports plan) -> Forall (fun p => Forall client_op (po_ops p)) (soap_ports plan) ->
  Forall (fun p => Forall server_op (po_ops p)) (soap_ports plan) -> soap_first plan -> NoDup (map po_name (soap_ports plan)) ->
  imported n O L md5 checked rt base false root stc stc' -> imported n O L md5 checked rt base true root sts sts' -> In p (soap_ports plan) ->
  let v := version_from_xml root in
  exists sc t ss, holds_service stc' v tns elsc p sc /\ holds_stub stc' p t /\ gt_service t = sc /\ holds_service sts' v tns elss p ss /\
  forall (W : Type) P Q (D : dispatcher W) a env numbers cls fns (fns' : string -> handler W) o w parameter header,
  In o (po_ops p) -> soap_platform P -> good_classes P Q -> plain D -> d_service D = as_service ss numbers cls fns ->
  (forall o', In o' (po_ops p) -> op_action o' <> None) -> distinguished a v env p o ->
  sendable P Q numbers (pp_element (op_in o)) parameter -> (header = VNone \/ exists c, message P Q c header) ->
  (forall x, envelope_response (pf_n P) (pf_O P) (pf_E P) v (pp_element (op_in o)) parameter header = Ok x ->
     transmits P x /\ Forall (accepted P) (blocks x)) ->
  let call := stub_call P (as_service sc numbers cls fns') (post_through a P D env) w (op_name o) parameter header in
  exists act data rq', op_action o = Some act /\
    reaches_handler P D (new_request (seen a env (request_headers v act) data) data) rq' (op_name o) /\
    erase (rq_body rq') = erase parameter /\ rq_header rq' = VNone /\
    (forall w' rq2 r out po, fns (op_name o) (w, rq') (rq_body rq') = ((w', rq2), Ok r) -> rq_method rq2 = rq_method rq' ->
       rs_body (as_response r) = PVal out -> rs_header (as_response r) = VNone ->
       op_out o = Some po -> sendable P Q numbers (pp_element po) out ->
       (forall x, envelope_response (pf_n P) (pf_O P) (pf_E P) v (pp_element po) out VNone = Ok x -> transmits P x) ->
       exists out', call = (w', Ok (CReturned out' VNone)) /\ erase out' = erase out) /\
    (forall w' rq2 code msg actor, fns (op_name o) (w, rq') (rq_body rq') = ((w', rq2), Err (SOAPError code msg actor)) ->
       text_good code -> text_good msg ->
       (forall x, error_response (pf_n P) (pf_O P) (pf_E P) v code msg VNone None = Ok x -> transmits P x) ->
       call = (w', Ok (CRaised (VStr code) (VStr msg) VNone))).
Proof. exact interop. Qed.
Print Assumptions C75_call_partial.
Example C75_nonvacuous :
  parse_obj 14 ex_oracle (lib_env 10) (wn (version_from_xml i_doc) "Definitions") i_doc = Ok i_d /\
  states_document i_d "urn:echoing" ["urn:echo"] i_plan /\ quotable "urn:echoing" /\ (forall s, In s ["urn:echo"] -> hex5 (i_md5 s)) /\
  schemas_bound i_md5 i_state ["urn:echo"] [i_elements] /\ Forall usable_port (soap_ports i_plan) /\
  Forall (fun p => Forall client_op (po_ops p)) (soap_ports i_plan) /\
  (Forall (fun p => Forall server_op (po_ops p)) (soap_ports i_plan) /\ soap_first i_plan) /\ NoDup (map po_name (soap_ports i_plan)) /\
  (forall server, exists st', imported 14 ex_oracle (lib_env 10) i_md5 v_checked g_rt 0 server i_doc i_state st') /\
  In i_port (soap_ports i_plan) /\ In i_op (po_ops i_port) /\ soap_platform i_P /\ good_classes i_P call_classes /\ plain (i_D i_doc) /\
  (forall a, distinguished a V11 (fun _ => None) i_port i_op) /\
  (forall s, s = "hi" \/ s = "boom" -> sendable i_P call_classes [0] "echoRequest" (request_of s) /\
     forall x, envelope_response (pf_n i_P) (pf_O i_P) (pf_E i_P) V11 "echoRequest" (request_of s) VNone = Ok x -> transmits i_P x /\ Forall (accepted i_P) (blocks x)) /\
  (forall a, exists b, i_call i_doc a "Echo" "hi" = (["Echo"; "hi"], Ok (CReturned b VNone)) /\ erase b = response_of "hi") /\
  (forall a, i_call i_doc a "Echo" "boom" = ([], Ok (CRaised (VStr "Server") (VStr "it blew up") VNone))).
Proof.
  split; [exact i_read|]. split; [exact i_states|]. split; [exact i_tns|]. split; [exact i_hex|]. split; [exact i_bound|].
  split; [exact i_usable|]. split; [exact i_client|]. split; [exact i_server|]. split; [exact i_names|].
  split. { intros []; eexists; eexists; (split; vm_compute; reflexivity). }
  split; [now left|]. split; [now left|]. split; [exact i_platform|]. split; [exact call_rt_classes|]. split; [split; reflexivity|].
  split; [exact i_distinguished|].
  split. { intros s H. split. { apply i_sendable; destruct H as [-> | ->]; reflexivity || discriminate. }
           intros x Hx. destruct H as [-> | ->]; vm_compute in Hx; injection Hx as <-;
             (split; [eexists; split; [vm_compute; reflexivity|apply ly_same]|]; repeat constructor). }
  split.
  - intros a. destruct a; eexists; (split; vm_compute; reflexivity).
  - intros a. destruct a; vm_compute; reflexivity.
Qed.
(** Where the action does not arrive, a call of the second of two operations that
    take the same element runs the function of the first. *)
Theorem C75_same_element_refuted :
  exists b, i_call i_two Wsgi "Shout" "hi" = (["Echo"; "hi"], Ok (CReturned b VNone)) /\
    i_call i_two Flask "Shout" "hi" = (["Echo"; "hi"], Ok (CReturned b VNone)) /\
    i_call i_two Django "Shout" "hi" = (["Shout"; "hi"], Ok (CReturned b VNone)) /\ erase b = response_of "hi".
Proof. eexists. split; [vm_compute; reflexivity|]. split; [vm_compute; reflexivity|]. split; vm_compute; reflexivity. Qed.
Print Assumptions C75_same_element_refuted.
