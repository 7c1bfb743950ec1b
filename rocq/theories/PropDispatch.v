(** C39-C44: what the dispatcher does with a request. *)
From Coq Require Import String Ascii List ZArith NArith Bool.
From Verif Require Import PyBase Xml PyVal XsdSimple XsdComplex XsdSchema PyHttp Soap SpecSoap Dispatch SpecDispatch
  PfSoap PfDispatch PfPin PfDispatch2 PfDispatch3 ExEnv ExSoap.
Import ListNotations.
Open Scope string_scope.
Open Scope list_scope.

(** ** C39 *)
(** The actor of a SOAPError raised by the function is lost: the fault sent has
    none, and the client reads None. *)
Theorem C39_actor_refuted :
  forall W P (D : dispatcher W) w rq rq' f s code message actor,
  soap_platform P -> plain D -> request_method rq "POST" -> reaches_handler P D rq rq' f ->
  sv_fns (d_service D) f (w, rq') (rq_body rq') = (s, Err (SOAPError code message (Some actor))) ->
  text_good code -> text_good message ->
  exists tr rs doc, dispatch P D w rq = (fst s, tr, Ok rs) /\ rs_content rs = Some (pf_ser P doc) /\
    client_reads_fault (pf_n P) (pf_O P) (pf_E P) (sv_version (d_service D)) (wire doc) = Ok (VStr code, VStr message, VNone).
Proof. exact actor_lost. Qed.
Print Assumptions C39_actor_refuted.
(** Nothing else is lost: code and message arrive. *)
Theorem C39_code_message_partial :
  forall W P (D : dispatcher W) w rq rq' f s code message actor,
  soap_platform P -> plain D -> request_method rq "POST" -> reaches_handler P D rq rq' f ->
  sv_fns (d_service D) f (w, rq') (rq_body rq') = (s, Err (SOAPError code message actor)) ->
  xml_text_ok code = true -> xml_text_ok message = true ->
  exists tr rs, dispatch P D w rq = (fst s, tr, Ok rs) /\ is_fault P D rs code message [].
Proof. exact handler_raises. Qed.
Print Assumptions C39_code_message_partial.

Lemma C39_nonvacuous :
  exists rq', reaches_handler echo_P (echo_D [] []) (echo_post "" "boom") rq' "echo" /\
    echo_handler ([], rq') (rq_body rq') = (([], rq'), Err (SOAPError "Server" "it blew up" (Some "urn:me"))).
Proof. exact echo_boom. Qed.

(** ** C40 *)
Theorem C40_wsdl :
  forall W P (D : dispatcher W) w rq, no_hooks D ->
  request_method rq "GET" -> has_key rq "wsdl" \/ has_key rq "singleWsdl" ->
  exists rs, dispatch P D w rq = (w, [], Ok rs) /\ rs_content rs = Some (wsdl_content D rq) /\
    rs_headers rs = [("Content-Type", "text/xml")].
Proof. exact route_wsdl. Qed.
Print Assumptions C40_wsdl.
Theorem C40_xsd :
  forall W P (D : dispatcher W) w rq key, no_hooks D ->
  request_method rq "GET" -> ~ has_key rq "wsdl" -> ~ has_key rq "singleWsdl" -> first_value rq "xsd" key ->
  exists rs, dispatch P D w rq = (w, [], Ok rs) /\
    match loc_get (Some (if String.eqb key "" then "xsd" else key)) (d_xsds D) with
    | Some schema => rs_content rs = Some schema /\ rs_headers rs = [("Content-Type", "text/xml")]
    | None => rs_content rs = Some "not_found" /\ rs_headers rs = [("Content-Type", "text/plain")]
    end.
Proof. exact route_xsd. Qed.
Print Assumptions C40_xsd.
(** POST is SOAP, whatever the query string: only the environment variables and
    the content matter that the SOAP handling itself reads. *)
Theorem C40_soap :
  forall W P (D : dispatcher W) w rq, no_hooks D -> request_method rq "POST" ->
  dispatch P D w rq =
  let '((w', rq'), tr, r) := stack P D (d_middlewares D) (w, rq) [] in (w', tr, build_response P D rq' r).
Proof. exact route_soap. Qed.
Print Assumptions C40_soap.
(** Everything else: no function is called, the state does not change. *)
Theorem C40_bad :
  forall W P (D : dispatcher W) w rq, ~ request_method rq "POST" ->
  (request_method rq "GET" -> ~ has_key rq "wsdl" /\ ~ has_key rq "singleWsdl" /\ ~ has_key rq "xsd") ->
  exists rs, dispatch P D w rq = (w, [], Ok rs) /\ rs_content rs = Some "bad_request" /\
    rs_headers rs = [("Content-Type", "text/plain")].
Proof. exact route_bad. Qed.
Print Assumptions C40_bad.
(** Exactly one of the four cases applies to a request. *)
Theorem C40_exactly_one :
  forall rq, let get := request_method rq "GET" in let post := request_method rq "POST" in
  let wsdl := has_key rq "wsdl" \/ has_key rq "singleWsdl" in let xsd := has_key rq "xsd" in
  (get /\ wsdl \/ get /\ ~ wsdl /\ xsd \/ post \/ ~ post /\ (get -> ~ wsdl /\ ~ xsd)) /\
  ~ (get /\ post).
Proof. exact route_one. Qed.
Print Assumptions C40_exactly_one.

Example C40_nonvacuous :
  has_key (echo_get "a=1&wsdl") "wsdl" /\ has_key (echo_get "singleWsdl=") "singleWsdl" /\
  first_value (echo_get "xsd=a.xsd&xsd=b") "xsd" "a.xsd" /\ ~ has_key (echo_get "xsd=wsdl") "wsdl" /\
  has_key (echo_get "%78sd") "xsd" /\
  loc_get (Some "a.xsd") (d_xsds (echo_D [] [])) = Some "<schema/>".
Proof.
  repeat split; try (eexists; vm_compute; eauto; fail).
  - exists [], [("xsd", "b")]. split; [reflexivity|intros v' []].
  - intros (v & H). vm_compute in H. destruct H as [H|[]]. discriminate H.
Qed.

(** ** C41 *)
(** A fault has status 500; otherwise the status is the one of the response
    object that the middlewares and the function have produced: 200 when they
    returned a bare object. *)
Theorem C41_soap_partial :
  forall W P (D : dispatcher W) w rq w' tr rs, no_hooks D -> request_method rq "POST" ->
  dispatch P D w rq = (w', tr, Ok rs) ->
  match rs_body rs with
  | PErr _ _ _ => rs_status rs = 500%Z
  | PVal v => exists s q, stack P D (d_middlewares D) (w, rq) [] = (s, tr, Ok q) /\
      rs_body (as_response q) = PVal v /\ rs_status rs = rs_status (as_response q)
  end.
Proof. exact soap_status. Qed.
Print Assumptions C41_soap_partial.
Theorem C41_success_partial :
  forall W P (D : dispatcher W) w rq rq' f s v w' tr rs, plain D -> request_method rq "POST" ->
  reaches_handler P D rq rq' f -> sv_fns (d_service D) f (w, rq') (rq_body rq') = (s, Ok (RPay (PVal v))) ->
  dispatch P D w rq = (w', tr, Ok rs) -> rs_status rs = 200%Z.
Proof. exact success_status. Qed.
Print Assumptions C41_success_partial.
(** Bad requests and unknown schemas are answered with status 200. *)
Theorem C41_bad_request_refuted :
  forall W P (D : dispatcher W) w rq, ~ request_method rq "POST" -> ~ request_method rq "GET" ->
  exists rs, dispatch P D w rq = (w, [], Ok rs) /\ rs_content rs = Some "bad_request" /\ rs_status rs = 200%Z.
Proof. exact bad_status. Qed.
Print Assumptions C41_bad_request_refuted.
Theorem C41_unknown_schema_refuted :
  forall W P (D : dispatcher W) w rq key, no_hooks D ->
  request_method rq "GET" -> ~ has_key rq "wsdl" -> ~ has_key rq "singleWsdl" -> first_value rq "xsd" key -> key <> "" ->
  loc_get (Some key) (d_xsds D) = None ->
  exists rs, dispatch P D w rq = (w, [], Ok rs) /\ rs_content rs = Some "not_found" /\ rs_status rs = 200%Z.
Proof. exact unknown_status. Qed.
Print Assumptions C41_unknown_schema_refuted.

Example C41_nonvacuous :
  (exists rq', reaches_handler echo_P (echo_D [] []) (echo_post "" "hello") rq' "echo") /\
  loc_get (Some "b.xsd") (d_xsds (echo_D [] [])) = None /\
  match dispatch echo_P (echo_D [] []) [] (echo_post "" "hello") with (_, _, Ok rs) => rs_status rs = 200%Z | _ => False end /\
  match dispatch echo_P (echo_D [] []) [] (echo_post "" "boom") with (_, _, Ok rs) => rs_status rs = 500%Z | _ => False end.
Proof. split; [exact echo_hello|]. repeat split. Qed.

(** ** C42 *)
(** With an action: the first method with that action, whatever the body; else a fault. *)
Theorem C42_action_partial :
  forall W P (D : dispatcher W) rq t a k action, has_action D rq action ->
  (forall m, find_handler P D rq (Elem t a k) = Ok m <->
     first_with (fun m => m_action m = action) (sv_methods (d_service D)) m) /\
  ((forall m, In m (sv_methods (d_service D)) -> m_action m <> action) ->
     find_handler P D rq (Elem t a k) =
     Err (SOAPError (sender_code (sv_version (d_service D))) ("Invalid SOAP action: " ++ action)%string None)).
Proof. exact find_by_action. Qed.
Print Assumptions C42_action_partial.
(** Without: the first method whose input element is the root of the body. *)
Theorem C42_root_partial :
  forall W P (D : dispatcher W) rq t a k m, no_action D rq ->
  first_with (fun m => m_in m = IOName (local_name t)) (sv_methods (d_service D)) m ->
  find_handler P D rq (Elem t a k) = Ok m.
Proof. exact find_by_root. Qed.
Print Assumptions C42_root_partial.
(** Else the first whose input element heads the substitution group of the root. *)
Theorem C42_substitution_partial :
  forall W P (D : dispatcher W) rq t a k m e g head, no_action D rq ->
  (forall m', In m' (sv_methods (d_service D)) -> m_in m' <> IOName (local_name t)) ->
  declared_as P (sv_schemas (d_service D)) (local_name t) e -> se_subst e = Some g -> without_prefix g head ->
  first_with (fun m => m_in m = IOName head) (sv_methods (d_service D)) m ->
  find_handler P D rq (Elem t a k) = Ok m.
Proof. exact @find_substituted. Qed.
Print Assumptions C42_substitution_partial.
(** And no other method is ever chosen. *)
Theorem C42_only_partial :
  forall W P (D : dispatcher W) rq t a k m, no_action D rq -> find_handler P D rq (Elem t a k) = Ok m ->
  first_with (fun m => m_in m = IOName (local_name t)) (sv_methods (d_service D)) m \/
  (forall m', In m' (sv_methods (d_service D)) -> m_in m' <> IOName (local_name t)) /\
  exists e g head, declared_as P (sv_schemas (d_service D)) (local_name t) e /\ se_subst e = Some g /\ without_prefix g head /\
    first_with (fun m => m_in m = IOName head) (sv_methods (d_service D)) m.
Proof. exact @find_only. Qed.
Print Assumptions C42_only_partial.
(** What is chosen is called. *)
Theorem C42_called_partial :
  forall W P (D : dispatcher W) w rq rq' f s r, plain D -> request_method rq "POST" -> reaches_handler P D rq rq' f ->
  sv_fns (d_service D) f (w, rq') (rq_body rq') = (s, r) ->
  exists x r', dispatch P D w rq = (fst s, [EValidated x; ECalled f (rq_body rq')], r').
Proof. exact chosen_called. Qed.
Print Assumptions C42_called_partial.
(** A valid root element without a substitution group that is no method's input
    crashes the dispatcher. *)
Theorem C42_crash_refuted :
  forall W P (D : dispatcher W) w rq h t a k e, plain D -> request_method rq "POST" ->
  carries P D rq h (Elem t a k) -> header_ok P (d_strict D) h -> pf_valid P (Elem t a k) = Ok tt ->
  no_action D rq -> sv_methods (d_service D) <> [] ->
  (forall m, In m (sv_methods (d_service D)) -> m_in m <> IOName (local_name t)) ->
  declared_as P (sv_schemas (d_service D)) (local_name t) e -> se_subst e = None ->
  dispatch P D w rq = (w, [EValidated (Elem t a k)], Err AttributeError).
Proof. exact unsubstituted. Qed.
Print Assumptions C42_crash_refuted.

Example C42_nonvacuous :
  has_action (echo_D [] []) (echo_post "x" "") "x" /\ no_action (echo_D [] []) (echo_post "" "") /\
  first_with (fun m => m_in m = IOName "echoRequest") (sv_methods echo_service) echo_method /\
  declared_as echo_P [0%nat] "shout" (mkSel (TComplex "EchoRequest") (Some "sns:echoRequest")) /\
  without_prefix "sns:echoRequest" "echoRequest" /\
  (exists rq', reaches_handler echo_P (echo_D [] []) (echo_post "" "shout") rq' "echo") /\
  declared_as echo_P [0%nat] "lonely" (mkSel (TComplex "EchoRequest") None) /\
  exists h x, carries echo_P (echo_D [] []) (echo_post "" "lonely") h x /\ header_ok echo_P true h /\
    pf_valid echo_P x = Ok tt.
Proof.
  split; [split; [reflexivity|discriminate]|]. split; [intros a [H _]; discriminate H|].
  split; [exists [], []; repeat split; intros ? []|].
  split; [exists [], 0%nat, []; split; [reflexivity|]; split; [reflexivity|intros s []]|].
  split; [split; [cbn; intuition discriminate|right; now exists "sns"]|].
  split; [exact echo_shout|]. split; [exists [], 0%nat, []; split; [reflexivity|]; split; [reflexivity|intros s []]|exact echo_lonely].
Qed.

(** ** C43 *)
(** Every call of a function, under any middlewares and hooks, directly follows
    the successful validation of an element, and the argument is that element
    read as the input type of one of the methods of that function. *)
Theorem C43_validated :
  forall W P (D : dispatcher W) w rq w' tr r, dispatch P D w rq = (w', tr, r) ->
  forall before f body after, tr = before ++ ECalled f body :: after ->
  exists before' x m t, before = before' ++ [EValidated x] /\ pf_valid P x = Ok tt /\
    In m (sv_methods (d_service D)) /\ m_fn m = Some f /\
    input_type P D m t /\ read_as P t x = Ok body.
Proof. exact dispatch_calls. Qed.
Print Assumptions C43_validated.
(** At most one call per request, when no middleware calls the rest twice. *)
Theorem C43_once :
  forall W P (D : dispatcher W) w rq w' tr r, Forall well_behaved (d_middlewares D) ->
  dispatch P D w rq = (w', tr, r) -> (calls tr <= 1)%nat.
Proof. exact dispatch_once. Qed.
Print Assumptions C43_once.
(** Without middlewares and hooks: whatever is called has been reached by this
    very request. *)
Theorem C43_this_request :
  forall W P (D : dispatcher W) w rq w' tr r f body, plain D -> request_method rq "POST" ->
  dispatch P D w rq = (w', tr, r) -> In (ECalled f body) tr ->
  exists rq', reaches_handler P D rq rq' f /\ rq_body rq' = body.
Proof. exact called_reached. Qed.
Print Assumptions C43_this_request.
(** The two middlewares of the package are of this kind. *)
Theorem C43_own_middlewares :
  forall W P (D : dispatcher W) traceback catches log,
  well_behaved (exception_to_fault P D traceback) /\ well_behaved (W := W) (exception_logger catches log).
Proof. exact own_well_behaved. Qed.
Print Assumptions C43_own_middlewares.

Example C43_nonvacuous :
  (let '(w, tr, r) := dispatch echo_P (echo_D [wrapper (cons "in") (cons "out")] []) [] (echo_post "" "hello") in
   w = ["out"; "hello"; "in"] /\ calls tr = 1%nat) /\
  (let '(w, tr, r) := dispatch echo_P (echo_D [] []) [] (echo_post "" "invalid") in calls tr = 0%nat) /\
  (let '(w, tr, r) := dispatch echo_P (echo_D [fun s => MNext s (fun s' _ => MNext s' (fun s'' r => MDone s'' r))] []) [] (echo_post "" "hello") in
   calls tr = 2%nat).
Proof. repeat split. Qed.

(** ** C44 *)
(** Malformed XML, a missing Body, a body or header that does not validate, an
    unknown action and an unknown root element are answered with a Client fault;
    no function is called and the state does not change. *)
Theorem C44_fault_partial :
  forall W P (D : dispatcher W) w rq message,
  soap_platform P -> plain D -> request_method rq "POST" -> bad_post P D rq message -> xml_text_ok message = true ->
  exists tr rs, dispatch P D w rq = (w, tr, Ok rs) /\ calls tr = 0%nat /\
    is_fault P D rs (sender_code (sv_version (d_service D))) message [].
Proof. exact bad_answer'. Qed.
Print Assumptions C44_fault_partial.
(** But exceptions do escape: when the message has a control character, *)
Theorem C44_control_refuted :
  forall W P (D : dispatcher W) w rq message,
  soap_platform P -> plain D -> request_method rq "POST" -> bad_post P D rq message -> xml_text_ok message = false ->
  exists tr, dispatch P D w rq = (w, tr, Err ValueError).
Proof. exact bad_control. Qed.
Print Assumptions C44_control_refuted.
(** for an empty Body, *)
Theorem C44_empty_body_refuted :
  forall W P (D : dispatcher W) w rq, soap_platform P -> plain D -> request_method rq "POST" ->
  pf_parse P (rq_content rq) = Ok (soap_envelope (soap_ns (sv_version (d_service D))) [] []) ->
  dispatch P D w rq = (w, [], Err IndexError).
Proof. exact empty_body'. Qed.
Print Assumptions C44_empty_body_refuted.
(** for a Header with xsi:nil, *)
Theorem C44_nil_header_refuted :
  forall W P (D : dispatcher W) w rq kids t a k, soap_platform P -> plain D -> request_method rq "POST" ->
  local_name t <> "message" -> local_name t <> "Fault" ->
  pf_parse P (rq_content rq) = Ok (soap_envelope (soap_ns (sv_version (d_service D)))
    [Elem (clark (soap_ns (sv_version (d_service D))) "Header") [(xsi_nil, "true")] kids] [Elem t a k]) ->
  dispatch P D w rq = (w, [], Err AttributeError).
Proof. exact nil_header'. Qed.
Print Assumptions C44_nil_header_refuted.
(** for a processing instruction in the Envelope. *)
Theorem C44_instruction_refuted :
  forall W P (D : dispatcher W) w rq t a k s, soap_platform P -> plain D -> request_method rq "POST" ->
  In (PI s) k -> pf_parse P (rq_content rq) = Ok (Elem t a k) -> dispatch P D w rq = (w, [], Err TypeError).
Proof. exact pi_escape'. Qed.
Print Assumptions C44_instruction_refuted.

Example C44_nonvacuous :
  soap_platform echo_P /\ plain (echo_D [] []) /\
  bad_post echo_P (echo_D [] []) (echo_post "" "garbage") "XMLSyntaxError: Start tag expected" /\
  bad_post echo_P (echo_D [] []) (echo_post "" "none") "Missing SOAP body" /\
  bad_post echo_P (echo_D [] []) (echo_post "" "invalid") "DocumentInvalid: no way" /\
  bad_post echo_P (echo_D [] []) (echo_post "nope" "hello") "Invalid SOAP action: nope" /\
  bad_post echo_P (echo_D [] []) (echo_post "" "unknown") "Missing SOAP action and invalid root tag: unknown".
Proof. exact echo_bad. Qed.
