(** C37, C38, C53: what a client reads from a fault, and how the version is chosen. *)
From Coq Require Import String Ascii List ZArith NArith Bool.
From Verif Require Import PyBase Xml PyVal XsdSimple XsdComplex PyHttp Soap SpecSoap PfSoap PfSoap2 PfSoap3.
Import ListNotations.
Open Scope string_scope.
Open Scope list_scope.

(** ** C37 *)
(** The element the server sends. *)
Theorem C37_element_partial :
  forall O U lim n code message actor, text_good code -> text_good message -> opt_good actor ->
  error_response (4 + n) O (soap_env U lim) V11 code message VNone actor =
  Ok (soap_envelope "http://schemas.xmlsoap.org/soap/envelope/" []
        [fault11 "http://schemas.xmlsoap.org/soap/envelope/" code message actor]).
Proof. exact (fun O U lim n => fault_sent O U lim n V11). Qed.
Print Assumptions C37_element_partial.
(** What the client reads back, whatever the header. *)
Theorem C37_fault11_partial :
  forall O U lim n code message actor header doc, text_good code -> text_good message -> opt_good actor ->
  error_response (4 + n) O (soap_env U lim) V11 code message header actor = Ok doc ->
  client_reads_fault (4 + n) O (soap_env U lim) V11 (wire doc) = Ok (VStr code, VStr message, opt_str actor).
Proof. exact (fun O U lim n code message actor header doc => fault_roundtrip O U lim n V11 code message actor header doc). Qed.
Print Assumptions C37_fault11_partial.
(** Not for every message: the empty one is read as None, and for one with a
    control character the server raises ValueError instead of answering. *)
Theorem C37_empty_refuted :
  forall O U lim n code, text_good code ->
  exists doc, error_response (4 + n) O (soap_env U lim) V11 code "" VNone None = Ok doc /\
    client_reads_fault (4 + n) O (soap_env U lim) V11 (wire doc) = Ok (VStr code, VNone, VNone).
Proof. exact (fun O U lim n => fault_empty O U lim n V11). Qed.
Print Assumptions C37_empty_refuted.
Theorem C37_control_refuted :
  forall O U lim n code message, xml_text_ok message = false ->
  error_response (4 + n) O (soap_env U lim) V11 code message VNone None = Err ValueError.
Proof. exact (fun O U lim n code message => fault_control O U lim n V11 code message VNone [] None eq_refl). Qed.
Print Assumptions C37_control_refuted.

Example C37_nonvacuous :
  forall O U lim, exists doc,
    error_response 4 O (soap_env U lim) V11 (code_client V11) "no such <operation> & more" VNone (Some "urn:me") = Ok doc /\
    client_reads_fault 4 O (soap_env U lim) V11 (wire doc) =
      Ok (VStr "Client", VStr "no such <operation> & more", VStr "urn:me") /\
    xml_text_ok (String (Ascii.ascii_of_nat 1) "") = false.
Proof. intros. eexists. split; [vm_compute; reflexivity|]. split; vm_compute; reflexivity. Qed.

(** ** C38 *)
Theorem C38_element_partial :
  forall O U lim n code message actor, text_good code -> text_good message -> opt_good actor ->
  error_response (4 + n) O (soap_env U lim) V12 code message VNone actor =
  Ok (soap_envelope "http://www.w3.org/2003/05/soap-envelope" []
        [fault12 "http://www.w3.org/2003/05/soap-envelope" code message actor]).
Proof. exact (fun O U lim n => fault_sent O U lim n V12). Qed.
Print Assumptions C38_element_partial.
Theorem C38_fault12_partial :
  forall O U lim n code message actor header doc, text_good code -> text_good message -> opt_good actor ->
  error_response (4 + n) O (soap_env U lim) V12 code message header actor = Ok doc ->
  client_reads_fault (4 + n) O (soap_env U lim) V12 (wire doc) = Ok (VStr code, VStr message, opt_str actor).
Proof. exact (fun O U lim n code message actor header doc => fault_roundtrip O U lim n V12 code message actor header doc). Qed.
Print Assumptions C38_fault12_partial.
Theorem C38_empty_refuted :
  forall O U lim n code, text_good code ->
  exists doc, error_response (4 + n) O (soap_env U lim) V12 code "" VNone None = Ok doc /\
    client_reads_fault (4 + n) O (soap_env U lim) V12 (wire doc) = Ok (VStr code, VNone, VNone).
Proof. exact (fun O U lim n => fault_empty O U lim n V12). Qed.
Print Assumptions C38_empty_refuted.
Theorem C38_control_refuted :
  forall O U lim n code message, xml_text_ok message = false ->
  error_response (4 + n) O (soap_env U lim) V12 code message VNone None = Err ValueError.
Proof. exact (fun O U lim n code message => fault_control O U lim n V12 code message VNone [] None eq_refl). Qed.
Print Assumptions C38_control_refuted.

Example C38_nonvacuous :
  forall O U lim, exists doc,
    error_response 4 O (soap_env U lim) V12 (code_server V12) "boom" VNone None = Ok doc /\
    client_reads_fault 4 O (soap_env U lim) V12 (wire doc) = Ok (VStr "ns0:Receiver", VStr "boom", VNone).
Proof. intros. eexists. split; vm_compute; reflexivity. Qed.

(** ** C53 *)
(** An implementation is selected exactly by its envelope namespace or its WSDL
    binding namespace, so by at most one; everything else is rejected. *)
Theorem C53_selected :
  forall namespace v, get_version namespace = Ok v <->
  match v with
  | V11 => namespace = "http://schemas.xmlsoap.org/soap/envelope/" \/ namespace = "http://schemas.xmlsoap.org/wsdl/soap/"
  | V12 => namespace = "http://www.w3.org/2003/05/soap-envelope" \/ namespace = "http://schemas.xmlsoap.org/wsdl/soap12/"
  end.
Proof. exact (fun ns v => match v with V11 => version_select ns V11 | V12 => version_select ns V12 end). Qed.
Print Assumptions C53_selected.
Theorem C53_rejected :
  forall namespace, ~ In namespace ["http://schemas.xmlsoap.org/soap/envelope/"; "http://schemas.xmlsoap.org/wsdl/soap/";
                                    "http://www.w3.org/2003/05/soap-envelope"; "http://schemas.xmlsoap.org/wsdl/soap12/"] ->
  get_version namespace = Err ValueError.
Proof. exact version_reject_list. Qed.
Print Assumptions C53_rejected.

Example C53_nonvacuous :
  get_version "http://www.w3.org/2003/05/soap-envelope" = Ok V12 /\
  get_version "http://schemas.xmlsoap.org/soap/envelope/" = Ok V11 /\ get_version "" = Err ValueError.
Proof. repeat split. Qed.
