(** C92: calls with header blocks between a generated client and server. *)
From Coq Require Import String Ascii List ZArith NArith Bool.
From Verif Require Import PyBase PfBase Xml PyVal XsdSimple XsdComplex XsdSchema PyHttp ExEnv LibClasses Py2Xsd XsdMeta Dispatch Soap Client Py2Wsdl Xsd2Py PyLoad
  ExGenCode PyUrl Wsdl2Py PyService PyInterop SpecMeta SpecGenCode SpecParse SpecRound SpecSoap SpecDispatch SpecHttp SpecClient SpecUrl SpecService SpecInterop SpecHeaders ExSoap PfClient3
  ExService ExInterop PfHeaders5 ExHeaders2.
Import ListNotations.
Open Scope nat_scope.
Open Scope string_scope.
Open Scope list_scope.

(** Calling an operation of the generated client with a header, with the
    generated server on the other side, runs the user's function named after the
    operation on a parameter and a header equal to the ones given (no header where
    the document gives the operation no header blocks), and returns a result and a
    header equal to the function's, or raises the SOAPError that it raised. *)
Theorem C92_call :
  forall n O L md5 checked rt base root d tns schemas elsc elss plan stc sts stc' sts' p,
  parse_obj n O L (wn (version_from_xml root) "Definitions") root = Ok d ->
  states_hdocument d tns schemas plan -> quotable tns -> (forall s, In s schemas -> hex5 (md5 (sp_tns s))) ->
  schemas_bound md5 stc (map sp_tns schemas) elsc -> reached (st_world stc) -> plain_base (st_world stc) base -> elements_there (st_world stc) elsc ->
  schemas_bound md5 sts (map sp_tns schemas) elss -> reached (st_world sts) -> plain_base (st_world sts) base -> elements_there (st_world sts) elss ->
  Forall (fun p => usable_port (bare p) /\ Forall (usable_hop schemas elsc) (hp_ops p)) (soap_hports plan) ->
  Forall (fun p => usable_port (bare p) /\ Forall (usable_hop schemas elss) (hp_ops p)) (soap_hports plan) ->
  Forall (fun p => Forall client_op (map ho_op (hp_ops p))) (soap_hports plan) ->
  Forall (fun p => Forall (fun o => server_op (ho_op o) /\ server_hop o) (hp_ops p)) (soap_hports plan) -> hsoap_first plan ->
  NoDup (map hp_name (soap_hports plan)) ->
  imported n O L md5 checked rt base false root stc stc' -> imported n O L md5 checked rt base true root sts sts' -> In p (soap_hports plan) ->
  let v := version_from_xml root in
  exists sc t ss, holds_hservice stc' v tns schemas elsc p sc /\ holds_stub stc' (bare p) t /\ gt_service t = sc /\ holds_hservice sts' v tns schemas elss p ss /\
  forall o, In o (hp_ops p) -> exists mc ms, method_of sc (op_name (ho_op o)) = Some mc /\ method_with (st_world stc') schemas elsc o mc /\
    method_of ss (op_name (ho_op o)) = Some ms /\ method_with (st_world sts') schemas elss o ms /\
  forall (W : Type) P Q (D : dispatcher W) a env numbers clsc clss fns (fns' : string -> handler W) w parameter header,
  soap_platform P -> good_classes P Q -> plain D -> d_service D = as_service ss numbers clss fns ->
  option_map clsc (gm_oh mc) = option_map clss (gm_oh ms) ->
  (forall o', In o' (hp_ops p) -> op_action (ho_op o') <> None) -> distinguished a v env (bare p) (ho_op o) ->
  sendable P Q numbers (pp_element (op_in (ho_op o))) parameter -> header_for P Q (option_map clss (gm_ih ms)) header ->
  (forall x, envelope_response (pf_n P) (pf_O P) (pf_E P) v (pp_element (op_in (ho_op o))) parameter header = Ok x ->
     transmits P x /\ Forall (accepted P) (blocks x)) ->
  let call := stub_call P (as_service sc numbers clsc fns') (post_through a P D env) w (op_name (ho_op o)) parameter header in
  exists act data rq', op_action (ho_op o) = Some act /\
    reaches_handler P D (new_request (seen a env (request_headers v act) data) data) rq' (op_name (ho_op o)) /\
    erase (rq_body rq') = erase parameter /\ header_received (option_map clss (gm_ih ms)) header (rq_header rq') /\
    (forall w' rq2 r out hout po, fns (op_name (ho_op o)) (w, rq') (rq_body rq') = ((w', rq2), Ok r) -> rq_method rq2 = rq_method rq' ->
       rs_body (as_response r) = PVal out -> rs_header (as_response r) = hout ->
       op_out (ho_op o) = Some po -> sendable P Q numbers (pp_element po) out -> header_for P Q (option_map clss (gm_oh ms)) hout ->
       (forall x, envelope_response (pf_n P) (pf_O P) (pf_E P) v (pp_element po) out hout = Ok x -> transmits P x) ->
       exists out' hout', call = (w', Ok (CReturned out' hout')) /\ erase out' = erase out /\ header_received (option_map clsc (gm_oh mc)) hout hout') /\
    (forall w' rq2 code msg actor, fns (op_name (ho_op o)) (w, rq') (rq_body rq') = ((w', rq2), Err (SOAPError code msg actor)) ->
       text_good code -> text_good msg ->
       (forall x, error_response (pf_n P) (pf_O P) (pf_E P) v code msg VNone None = Ok x -> transmits P x) ->
       call = (w', Ok (CRaised (VStr code) (VStr msg) VNone))).
Proof. exact hinterop. Qed.
Print Assumptions C92_call.
Example C92_nonvacuous :
  parse_obj 14 ex_oracle (lib_env 10) (wn (version_from_xml t_doc) "Definitions") t_doc = Ok t_d /\
  states_hdocument t_d "urn:echoing" t_schemas t_plan /\ quotable "urn:echoing" /\ (forall s, In s t_schemas -> hex5 (i_md5 (sp_tns s))) /\
  schemas_bound i_md5 t_state (map sp_tns t_schemas) [t_elements] /\ reached t_world /\ plain_base t_world 0 /\ elements_there t_world [t_elements] /\
  Forall (fun p => usable_port (bare p) /\ Forall (usable_hop t_schemas [t_elements]) (hp_ops p)) (soap_hports t_plan) /\
  Forall (fun p => Forall client_op (map ho_op (hp_ops p))) (soap_hports t_plan) /\
  (Forall (fun p => Forall (fun o => server_op (ho_op o) /\ server_hop o) (hp_ops p)) (soap_hports t_plan) /\ hsoap_first t_plan) /\
  NoDup (map hp_name (soap_hports t_plan)) /\
  (forall server, exists st', imported 14 ex_oracle (lib_env 10) i_md5 v_checked g_rt 0 server t_doc t_state st') /\
  In t_port (soap_hports t_plan) /\ In t_op (hp_ops t_port) /\ soap_platform t_P /\ good_classes t_P call_classes /\ plain t_D /\
  (forall server, exists st m c d, t_import server = Ok st /\ method_of (t_generated server) "Echo" = Some m /\ gm_ih m = Some c /\
     e_cls (pf_E t_P) (t_cls c) = Some d /\ cd_fields d = class_fields (st_world st) c) /\
  (forall a, distinguished a V11 (fun _ => None) (bare t_port) i_op) /\
  (forall s, s = "hi" \/ s = "boom" -> sendable t_P call_classes [0] "echoRequest" (request_of s) /\ header_for t_P call_classes (Some "Token") (token_of "you") /\
     forall x, envelope_response (pf_n t_P) (pf_O t_P) (pf_E t_P) V11 "echoRequest" (request_of s) (token_of "you") = Ok x -> transmits t_P x /\ Forall (accepted t_P) (blocks x)) /\
  (forall a, exists b h, t_call a "hi" = (["Echo"; "hi"], Ok (CReturned b h)) /\ erase b = response_of "hi" /\ erase h = token_of "you") /\
  (forall a, t_call a "boom" = ([], Ok (CRaised (VStr "Server") (VStr "it blew up") VNone))).
Proof.
  split; [exact t_read|]. split; [exact t_states|]. split; [exact i_tns|]. split; [exact t_hex|]. split; [exact t_bound|].
  split; [exact t_reached|]. split; [exact t_base|]. split; [exact t_there|].
  split; [exact t_usable|]. split; [exact t_client|]. split; [exact t_server|]. split; [exact t_names|].
  split. { intros []; eexists; eexists; (split; vm_compute; reflexivity). }
  split; [now left|]. split; [now left|]. split; [exact t_platform|]. split; [exact call_rt_classes|]. split; [split; reflexivity|].
  split; [exact t_described|]. split; [exact t_distinguished|].
  split. { intros s H. split. { apply i_sendable; destruct H as [-> | ->]; reflexivity || discriminate. }
           split. { right. exists "Token". split; [apply call_token; reflexivity || discriminate|now left]. }
           intros x Hx. destruct H as [-> | ->]; vm_compute in Hx; injection Hx as <-;
             (split; [eexists; split; [vm_compute; reflexivity|apply ly_same]|]; repeat constructor). }
  split.
  - intros a. destruct a; eexists _, _; (split; [vm_compute; reflexivity|]; split; vm_compute; reflexivity).
  - intros a. destruct a; vm_compute; reflexivity.
Qed.
(** The WSDL document says that the header block is the element who of urn:echo.
    What the generated client sends is an element called like the message part, in
    the namespace of the envelope, so other implementations of the service do not
    find the block. *)
Theorem C92_block_refuted :
  states_hdocument t_d "urn:echoing" [mkSp "urn:echo" ["echoRequest"; "echoResponse"; "who"]] t_plan /\ hd_parts (ho_in t_op) = [mkPp "user" "who"] /\
  exists data x, stub_call t_P (as_service (t_generated false) [0] t_cls t_fn) (fun w _ d => (d :: w, Err ValueError)) [] "Echo" (request_of "hi") (token_of "you")
      = ([data], Err ValueError) /\
    pf_parse t_P data = Ok x /\ map el_tag (el_kids x) = [clark (soap_ns V11) "Header"; clark (soap_ns V11) "Body"] /\
    map el_tag (el_kids (hd (Text "") (el_kids x))) = [clark (soap_ns V11) "user"] /\ clark (soap_ns V11) "user" <> clark "urn:echo" "who".
Proof.
  split; [exact t_states|]. split; [reflexivity|]. eexists _, (t_message_doc "echoRequest" "hi" "you"). split; [vm_compute; reflexivity|]. split; [vm_compute; reflexivity|].
  split; [reflexivity|]. split; [reflexivity|discriminate].
Qed.
Print Assumptions C92_block_refuted.
