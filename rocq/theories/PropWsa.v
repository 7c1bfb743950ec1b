(** C87: WS-Addressing replies. *)
From Coq Require Import String Ascii List ZArith NArith Bool.
From Verif Require Import PyBase Xml PyVal XsdSimple XsdComplex XsdSchema PyHttp Soap Dispatch Client Wsa
  SpecParse SpecRender SpecRound SpecSimple SpecSoap SpecDispatch SpecHttp SpecClient SpecWsa PfLeaf PfClient3 PfWsa ExEnv ExSoap ExWsa.
Import ListNotations.
Open Scope nat_scope.
Open Scope string_scope.
Open Scope list_scope.

(** ** C87 *)
(** Filled in from the header of a request, whatever it held before, a header is
    the answer to that request: its Action is that of the request followed by
    "Response", it relates to the id of the request and has the new id; where the
    answer to it is to go does not change. *)
Theorem C87_fill :
  forall O E uuid dst src act id, has_wsa E -> wsa_header dst -> attribute src "Action" (VStr act) -> attribute src "MessageID" (VStr id) ->
  exists dst', fill_header O E uuid dst src = (dst', Ok tt) /\ wsa_header dst' /\
    attribute dst' "Action" (VStr (act ++ "Response")) /\ attribute dst' "RelatesTo" (VStr id) /\
    attribute dst' "MessageID" (VStr uuid) /\ attribute dst' "To" (VStr anonymous) /\
    py_get dst' "ReplyTo" = py_get dst "ReplyTo".
Proof. exact fill_reply. Qed.
Print Assumptions C87_fill.
(** Without a header to answer, only the new id and the destination are set. *)
Theorem C87_first :
  forall O E uuid dst, has_wsa E -> wsa_header dst ->
  exists dst', fill_header O E uuid dst VNone = (dst', Ok tt) /\ wsa_header dst' /\ attribute dst' "MessageID" (VStr uuid) /\ attribute dst' "To" (VStr anonymous) /\
    forall name, In name ["Action"; "ReplyTo"; "RelatesTo"] -> py_get dst' name = py_get dst name.
Proof. exact fill_first. Qed.
Print Assumptions C87_first.
(** A request without an Action cannot be answered: a TypeError, and the header
    is as it was. *)
Theorem C87_no_action :
  forall O E uuid dst src, wsa_header src -> attribute src "Action" VNone -> fill_header O E uuid dst src = (dst, Err TypeError).
Proof. exact fill_no_action. Qed.
Print Assumptions C87_no_action.
(** On the wire the header of a message is exactly the blocks of WS-Addressing,
    in its namespace and in this order, under either version of SOAP. *)
Theorem C87_blocks :
  forall O U lim n v ci xei fsi di si tag reply action id to related xe x, has_wsa (soap_env U lim) ->
  e_cls (soap_env U lim) ci = Some di -> cd_schema di = Some si -> In "ComplexType" (cd_mro di) ->
  text_good action -> text_good id -> text_good to -> text_good related -> opt_good reply ->
  envelope_response (3 + n) O (soap_env U lim) v tag (VObj ci xei fsi) (written_header reply action id to related xe) = Ok x ->
  exists body, x = soap_envelope (soap_ns v)
    [Elem (clark (soap_ns v) "Header") []
       ([block "Action" action; block "MessageID" id; block "To" to] ++ match reply with Some r => [reply_block r] | None => [] end ++ [block "RelatesTo" related])] [body].
Proof. exact wsa_blocks. Qed.
Print Assumptions C87_blocks.
(** End to end: the handler of a call made with a header of WS-Addressing can
    fill in a new header from the one it received; if it returns that header
    beside an object that can be sent, the caller gets the object and a header
    that answers the one it sent. *)
Theorem C87_answer :
  forall (W : Type) P Q (D : dispatcher W) a base op w m f tag parameter header act id uuid,
  soap_platform P -> good_classes P Q -> has_wsa (pf_E P) -> plain D -> callable P Q D a base op m f tag parameter header ->
  server_header (d_service D) m = Some "wsa.Header" -> m_oh m = Some "wsa.Header" ->
  attribute header "Action" (VStr act) -> attribute header "MessageID" (VStr id) -> text_good uuid ->
  exists data rq' reply hout,
    reaches_handler P D (new_request (seen a base (request_headers (sv_version (d_service D)) (m_action m)) data) data) rq' f /\ rq_method rq' = Some m /\
    construct (pf_O P) (pf_E P) "wsa.Header" [] = Ok reply /\ fill_header (pf_O P) (pf_E P) uuid reply (rq_header rq') = (hout, Ok tt) /\
    (forall w' rq2 r out c otag, sv_fns (d_service D) f (w, rq') (rq_body rq') = ((w', rq2), Ok r) -> rq_method rq2 = Some m ->
       rs_body (as_response r) = PVal out -> rs_header (as_response r) = hout ->
       output_element P (d_service D) m otag c -> message_tag otag -> message P Q c out ->
       (forall x, envelope_response (pf_n P) (pf_O P) (pf_E P) (sv_version (d_service D)) otag out hout = Ok x -> transmits P x) ->
       exists out' h', stub_call P (d_service D) (post_through a P D base) w op parameter header = (w', Ok (CReturned out' h')) /\ erase out' = erase out /\
         attribute h' "Action" (VStr (act ++ "Response")) /\ attribute h' "RelatesTo" (VStr id) /\ attribute h' "MessageID" (VStr uuid) /\ attribute h' "To" (VStr anonymous)).
Proof. exact @wsa_answer. Qed.
Print Assumptions C87_answer.
(** The switch that should give every method such headers never works: unless
    both header classes are given anyway, making the service raises. *)
Theorem C87_use_wsa_refuted :
  forall input_header output_header, input_header = None \/ output_header = None ->
  service_headers true input_header output_header = Err AttributeError.
Proof. exact use_wsa_fails. Qed.
Print Assumptions C87_use_wsa_refuted.

(** A call with such headers, under every adapter, and the two envelopes. *)
Example C87_nonvacuous :
  soap_platform wsa_P /\ good_classes wsa_P wsa_Q /\ has_wsa (pf_E wsa_P) /\ plain wsa_D /\
  (forall a, callable wsa_P wsa_Q wsa_D a (fun _ => None) "Echo" wsa_method "echo" "echoRequest" (request_of "hi") wsa_request) /\
  server_header wsa_service wsa_method = Some "wsa.Header" /\ m_oh wsa_method = Some "wsa.Header" /\
  attribute wsa_request "Action" (VStr "urn:echo#echo") /\ attribute wsa_request "MessageID" (VStr "uuid:1") /\ text_good "uuid:2" /\ wsa_header wsa_request /\
  output_element wsa_P wsa_service wsa_method "echoResponse" "EchoResponse" /\ message_tag "echoResponse" /\ message wsa_P wsa_Q "EchoResponse" (response_of "hi") /\
  (forall a, exists b h, stub_call wsa_P wsa_service (post_through a wsa_P wsa_D (fun _ => None)) [] "Echo" (request_of "hi") wsa_request = (["hi"], Ok (CReturned b h)) /\
     erase b = response_of "hi" /\
     erase h = VObj "wsa.Header" None [("Action", VStr "urn:echo#echoResponse"); ("MessageID", VStr "uuid:2"); ("To", VStr anonymous); ("ReplyTo", VNone); ("RelatesTo", VStr "uuid:1")]).
Proof.
  split; [exact wsa_platform|]. split; [exact wsa_good|]. split; [exact wsa_has|]. split; [split; reflexivity|]. split; [exact wsa_callable|].
  do 4 (split; [reflexivity|]). split; [split; [discriminate|reflexivity]|]. split; [eexists _, _; split; reflexivity|].
  split; [split; [reflexivity|eexists; split; reflexivity]|]. split; [repeat split; discriminate|]. split; [exact wsa_response|].
  intros a. destruct a; eexists; eexists; (split; [vm_compute; reflexivity|split; vm_compute; reflexivity]).
Qed.
Example C87_blocks_nonvacuous :
  exists di si, e_cls wsa_env "EchoResponse" = Some di /\ cd_schema di = Some si /\ In "ComplexType" (cd_mro di) /\
  forall v, envelope_response (3 + 3) ex_oracle (soap_env wsa_U 10) v "echoResponse" (response_of "hi") (written_header (Some "urn:me") "urn:act" "1" "urn:to" "2" None) =
    Ok (soap_envelope (soap_ns v)
      [Elem (clark (soap_ns v) "Header") [] [block "Action" "urn:act"; block "MessageID" "1"; block "To" "urn:to"; reply_block "urn:me"; block "RelatesTo" "2"]]
      [Elem (clark "urn:echo" "echoResponse") [] [Elem (clark "urn:echo" "value") [] [Text "hi"]]]).
Proof. eexists _, _. split; [reflexivity|]. split; [reflexivity|]. split; [cbn; auto|]. intros v. destruct v; vm_compute; reflexivity. Qed.
(** A fresh header without a request, and a request whose Action was forgotten. *)
Example C87_fill_nonvacuous :
  (exists h, construct ex_oracle wsa_env "wsa.Header" [] = Ok h /\ wsa_header h /\ attribute h "Action" VNone /\
     fst (fill_header ex_oracle wsa_env "u" h VNone) = VObj "wsa.Header" None [("Action", VNone); ("MessageID", VStr "u"); ("To", VStr anonymous); ("ReplyTo", VNone); ("RelatesTo", VNone)] /\
     fill_header ex_oracle wsa_env "u" wsa_request h = (wsa_request, Err TypeError)) /\
  service_headers true (Some "A") (Some "B") = Ok (Some "A", Some "B") /\ service_headers false None None = Ok (None, None).
Proof.
  split; [|split; reflexivity]. eexists. split; [vm_compute; reflexivity|]. split; [eexists _, _; split; reflexivity|]. repeat split; vm_compute; reflexivity.
Qed.
