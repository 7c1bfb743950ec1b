(** C45-C48: middlewares and hooks. *)
From Coq Require Import String Ascii List ZArith NArith Bool.
From Verif Require Import PyBase Xml PyVal XsdSimple XsdComplex XsdSchema PyHttp Soap SpecSoap Dispatch SpecDispatch
  PfSoap PfDispatch PfDispatch2 PfDispatch3 ExEnv ExSoap.
Import ListNotations.
Open Scope string_scope.
Open Scope list_scope.

(** ** C45 *)
(** Any exception of the rest of the stack that is an Exception and whose text
    XML can carry becomes a fault with status 500. *)
Theorem C45_fault_partial :
  forall W P (D : dispatcher W) tb inner w rq s tr e, soap_platform P -> no_hooks D -> request_method rq "POST" ->
  d_middlewares D = exception_to_fault P D tb :: inner -> stack P D inner (w, rq) [] = (s, tr, Err e) -> ~ base_exception e ->
  xml_text_ok (fst (fault_of P D tb e)) = true -> xml_text_ok (snd (fault_of P D tb e)) = true ->
  exists rs, dispatch P D w rq = (fst s, tr, Ok rs) /\ is_fault P D rs (fst (fault_of P D tb e)) (snd (fault_of P D tb e)) [].
Proof. exact etf_answer. Qed.
Print Assumptions C45_fault_partial.
(** Results pass through. *)
Theorem C45_result_partial :
  forall W P (D : dispatcher W) tb inner q tr s tr' v, stack P D inner q tr = (s, tr', Ok v) ->
  stack P D (exception_to_fault P D tb :: inner) q tr = (s, tr', Ok v).
Proof. exact etf_ok. Qed.
Print Assumptions C45_result_partial.
(** KeyboardInterrupt, SystemExit and GeneratorExit pass through too. *)
Theorem C45_base_exceptions_partial :
  forall W P (D : dispatcher W) tb inner q tr s tr' e, stack P D inner q tr = (s, tr', Err e) -> base_exception e ->
  stack P D (exception_to_fault P D tb :: inner) q tr = (s, tr', Err e).
Proof. exact etf_base. Qed.
Print Assumptions C45_base_exceptions_partial.
(** An exception whose text has a control character is not answered: building
    the fault raises ValueError. *)
Theorem C45_control_refuted :
  forall W P (D : dispatcher W) tb inner w rq s tr e, soap_platform P -> no_hooks D -> request_method rq "POST" ->
  d_middlewares D = exception_to_fault P D tb :: inner -> stack P D inner (w, rq) [] = (s, tr, Err e) -> ~ base_exception e ->
  xml_text_ok (snd (fault_of P D tb e)) = false -> dispatch P D w rq = (fst s, tr, Err ValueError).
Proof. exact etf_control. Qed.
Print Assumptions C45_control_refuted.

(** The exceptions that escape without the middleware: an empty body is now answered. *)
Definition guard : middleware (list string) := exception_to_fault echo_P (echo_D [] []) false.
Example C45_nonvacuous :
  (exists s, stack echo_P (echo_D [guard] []) [] ([], echo_post "" "empty") [] = (s, [], Err IndexError)) /\
  fault_of echo_P (echo_D [] []) false IndexError = ("Server", "IndexError: ") /\
  fault_of echo_P (echo_D [] []) false (Exn EKeyError "'x'") = ("Server", "KeyError: 'x'") /\
  match dispatch echo_P (echo_D [guard] []) [] (echo_post "" "empty") with (_, _, Ok rs) => rs_status rs = 500%Z | _ => False end /\
  match dispatch echo_P (echo_D [] []) [] (echo_post "" "empty") with (_, _, Ok rs) => False | (_, _, Err e) => e = IndexError end.
Proof. split; [eexists; reflexivity|]. repeat split. Qed.

(** ** C46 *)
(** With the logger the outcome is the same; the state differs by what the
    logger does, once, exactly when an exception it is made for is raised. *)
Theorem C46_transparent :
  forall W P (D : dispatcher W) catches log inner q tr, let '(s, tr', r) := stack P D inner q tr in
  stack P D (exception_logger catches log :: inner) q tr =
  ((match r with Err e => if catches e then log e (fst s) else fst s | Ok _ => fst s end, snd s), tr', r).
Proof. exact logger_spec. Qed.
Print Assumptions C46_transparent.
(** Also with middlewares around it: a logger that does nothing to the state
    cannot be told from no logger. *)
Theorem C46_anywhere :
  forall W P (D : dispatcher W) catches outer inner q tr,
  stack P D (outer ++ exception_logger catches (fun _ w => w) :: inner) q tr = stack P D (outer ++ inner) q tr.
Proof. exact logger_anywhere. Qed.
Print Assumptions C46_anywhere.

Definition logged : middleware (list string) := exception_logger is_Exception (fun e w => reported e :: w).
Example C46_nonvacuous :
  let run c := let '(w, _, _) := dispatch echo_P (echo_D [logged] []) [] (echo_post "" c) in w in
  run "hello" = ["hello"] /\ run "boom" = ["SOAPError: it blew up"] /\ run "empty" = ["IndexError: "].
Proof. repeat split. Qed.

(** ** C47 *)
(** The first middleware is outermost: [before] runs in the order of the list
    and then the method, [after] in the opposite order. *)
Theorem C47_order :
  forall W P (D : dispatcher W) l w rq tr,
  stack P D (map (fun ba => wrapper (fst ba) (snd ba)) l) (w, rq) tr =
  let '((w1, rq1), tr1, r) := call_method P D (fold_left (fun w ba => fst ba w) l w, rq) tr in
  ((fold_right (fun ba w => snd ba w) w1 l, rq1), tr1, r).
Proof. exact stack_wrappers. Qed.
Print Assumptions C47_order.
(** A middleware that does not call next_call: what comes after it does not
    matter, and no method is called. *)
Theorem C47_stop :
  forall W P (D : dispatcher W) inner inner' m s r, (forall q, m q = MDone (s q) (r q)) ->
  forall outer q tr, stack P D (outer ++ m :: inner) q tr = stack P D (outer ++ m :: inner') q tr.
Proof. exact stack_stop. Qed.
Print Assumptions C47_stop.
Theorem C47_stop_result :
  forall W P (D : dispatcher W) m inner q tr s r, m q = MDone s r -> stack P D (m :: inner) q tr = (s, tr, r).
Proof. exact stack_stop_now. Qed.
Print Assumptions C47_stop_result.
(** A middleware sees of the rest of the stack only what it does. *)
Theorem C47_rest :
  forall W P (D : dispatcher W) outer inner inner', (forall s tr, stack P D inner s tr = stack P D inner' s tr) ->
  forall s tr, stack P D (outer ++ inner) s tr = stack P D (outer ++ inner') s tr.
Proof. exact stack_ext. Qed.
Print Assumptions C47_rest.

Example C47_nonvacuous :
  let mw (n : string) : middleware (list string) := wrapper (cons ("before " ++ n)%string) (cons ("after " ++ n)%string) in
  let stop : middleware (list string) := fun s => MDone s (Err (SOAPError "Client" "no" None)) in
  let run l := let '(w, tr, _) := dispatch echo_P (echo_D l []) [] (echo_post "" "hello") in (rev w, calls tr) in
  run [mw "1"; mw "2"] = (["before 1"; "before 2"; "hello"; "after 2"; "after 1"], 1%nat) /\
  run [mw "1"; stop; mw "2"] = (["before 1"; "after 1"], 0%nat).
Proof. split; reflexivity. Qed.

(** ** C48 *)
(** Registration accepts exactly the names that begin with a documented one. *)
Theorem C48_names_partial :
  forall names, check_hooks names = Ok tt <->
  forall n, In n names -> exists d, In d documented_hooks /\ String.prefix d n = true.
Proof. exact check_hooks_spec. Qed.
Print Assumptions C48_names_partial.
(** So wrong names are accepted, *)
Theorem C48_names_refuted :
  forall d suffix, In d documented_hooks -> check_hooks [(d ++ suffix)%string] = Ok tt.
Proof. exact hook_suffix. Qed.
Print Assumptions C48_names_refuted.
(** and never called: only these hooks matter. *)
Theorem C48_only_partial :
  forall W P (D : dispatcher W) hs w rq, same_hooks D (with_hooks D hs) -> dispatch P (with_hooks D hs) w rq = dispatch P D w rq.
Proof. exact hooks_used. Qed.
Print Assumptions C48_only_partial.
(** The hook 'xsd-response' is never called; *)
Theorem C48_xsd_response_refuted :
  forall W P (D : dispatcher W) w rq, dispatch P (without_hook "xsd-response" D) w rq = dispatch P D w rq.
Proof. exact xsd_response_unused. Qed.
Print Assumptions C48_xsd_response_refuted.
(** the other request hooks are called with the request, and what they return
    is handled instead; *)
Theorem C48_soap_request_partial :
  forall W P (D : dispatcher W) w rq h w1 rq1, request_method rq "POST" -> request_method rq1 "POST" ->
  assoc "soap-request" (d_hooks D) = Some h -> h w rq None = (w1, Ok (HReq rq1)) ->
  dispatch P D w rq = dispatch P (without_hook "soap-request" D) w1 rq1.
Proof. exact soap_request_hook. Qed.
Print Assumptions C48_soap_request_partial.
Theorem C48_get_request_partial :
  forall W P (D : dispatcher W) w rq name h w1 rq1,
  (name = "wsdl-request" /\ (has_key rq "wsdl" \/ has_key rq "singleWsdl") /\ (has_key rq1 "wsdl" \/ has_key rq1 "singleWsdl") \/
   name = "xsd-request" /\ (~ has_key rq "wsdl" /\ ~ has_key rq "singleWsdl" /\ has_key rq "xsd") /\
      (~ has_key rq1 "wsdl" /\ ~ has_key rq1 "singleWsdl" /\ has_key rq1 "xsd")) ->
  request_method rq "GET" -> request_method rq1 "GET" ->
  assoc name (d_hooks D) = Some h -> h w rq None = (w1, Ok (HReq rq1)) ->
  dispatch P D w rq = dispatch P (without_hook name D) w1 rq1.
Proof. exact get_request_hooks. Qed.
Print Assumptions C48_get_request_partial.
(** response hooks are called with the response, and what they return is sent;
    'wsdl-response' for schemas, too. *)
Theorem C48_soap_response_partial :
  forall W P (D : dispatcher W) w rq h w1 tr rs w2 rs2, request_method rq "POST" ->
  assoc "soap-response" (d_hooks D) = Some h ->
  dispatch P (without_hook "soap-response" D) w rq = (w1, tr, Ok rs) ->
  (forall q, h w1 q (Some rs) = (w2, Ok (HResp rs2))) ->
  dispatch P D w rq = (w2, tr, Ok rs2).
Proof. exact soap_response_hook. Qed.
Print Assumptions C48_soap_response_partial.
Theorem C48_get_response_partial :
  forall W P (D : dispatcher W) w rq h w1 tr rs w2 rs2, request_method rq "GET" ->
  has_key rq "wsdl" \/ has_key rq "singleWsdl" \/ has_key rq "xsd" ->
  assoc "wsdl-response" (d_hooks D) = Some h ->
  dispatch P (without_hook "wsdl-response" D) w rq = (w1, tr, Ok rs) ->
  (forall q, h w1 q (Some rs) = (w2, Ok (HResp rs2))) ->
  dispatch P D w rq = (w2, tr, Ok rs2).
Proof. exact get_response_hook. Qed.
Print Assumptions C48_get_response_partial.
(** A hook that returns something of the wrong kind: TypeError. *)
Theorem C48_wrong_kind_partial :
  forall W P (D : dispatcher W) w rq h w1 x, request_method rq "POST" ->
  assoc "soap-request" (d_hooks D) = Some h -> h w rq None = (w1, Ok x) -> (forall q, x <> HReq q) ->
  dispatch P D w rq = (w1, [], Err (Exn ETypeError "Request hooks must return a SOAPRequest.")).
Proof. exact soap_request_wrong. Qed.
Print Assumptions C48_wrong_kind_partial.

Definition stamp : hook (list string) := fun w _ r =>
  match r with
  | None => (w, Ok HOther)
  | Some rs => ("stamped" :: w, Ok (HResp (mkResp (rs_body rs) (rs_header rs) 299 (rs_headers rs) (rs_content rs))))
  end.
Definition redirect : hook (list string) := fun w _ _ => (w, Ok (HReq (echo_post "" "boom"))).
Example C48_nonvacuous :
  check_hooks ["soap-request"; "xsd-response"] = Ok tt /\ check_hooks ["soap-requests"] = Ok tt /\ check_hooks ["request"] <> Ok tt /\
  (let '(w, _, r) := dispatch echo_P (echo_D [] [("soap-response", stamp)]) [] (echo_post "" "hello") in
   w = ["stamped"; "hello"] /\ match r with Ok rs => rs_status rs = 299%Z | _ => False end) /\
  (let '(w, _, r) := dispatch echo_P (echo_D [] [("soap-request", redirect)]) [] (echo_post "" "hello") in
   w = [] /\ match r with Ok rs => rs_status rs = 500%Z | _ => False end).
Proof. repeat split. discriminate. Qed.
