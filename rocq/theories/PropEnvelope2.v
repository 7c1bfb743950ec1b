(** C93: messages whose elements are called like the fields of the Body class. *)
From Coq Require Import String Ascii List ZArith NArith Bool.
From Verif Require Import PyBase Xml PyVal XsdSimple XsdComplex XsdSchema PyHttp Soap Dispatch Client SpecSoap SpecDispatch SpecEnvelope SpecEnvelope2
  PfEnvelope3 ExEnv ExSoap ExEnvelope.
Import ListNotations.
Open Scope string_scope.
Open Scope list_scope.

(** The dispatcher finds the message in the Body also if it is called message or
    Fault. *)
Theorem C93_names_partial :
  forall W P (D : dispatcher W) rq doc header body x, soap_platform P -> pf_parse P (rq_content rq) = Ok doc ->
  envelope_of doc header body -> any_message (sv_version (d_service D)) body x ->
  (exists h, carries P D rq h x /\ header_from header h) /\
  forall h x', carries P D rq h x' -> x' = x /\ header_from header h.
Proof. exact any_read. Qed.
Print Assumptions C93_names_partial.
(** The client returns a result called message as any other.  One that is called
    Fault, in whatever namespace, it does not return: with SOAP 1.1 it raises a
    SOAPError without code and message, with SOAP 1.2 an AttributeError. *)
Theorem C93_names_refuted :
  forall W T P (S : service W) (post : transport T) w w' op m parameter header hs data content doc hd body x h,
  soap_platform P -> first_with (fun m => m_op m = op) (sv_methods S) m -> stub_request P S m parameter header = Ok (hs, data) ->
  post w hs data = (w', Ok content) -> pf_parse P content = Ok doc -> envelope_of doc hd body -> any_message (sv_version S) body x ->
  reply_header (pf_n P) (pf_O P) (pf_E P) (m_oh m) hd h ->
  (children_called "Fault" body [] -> forall name e c r,
    m_out m = IOName name -> find_element_by_name (pf_gn P) (pf_G P) (sv_schemas S) name = Ok (Some e) -> se_type e = TComplex c ->
    parse_obj (pf_n P) (pf_O P) (pf_E P) c x = Ok r ->
    stub_call P S post w op parameter header = (w', Ok (CReturned r h))) /\
  (~ children_called "Fault" body [] ->
    stub_call P S post w op parameter header =
    (w', match sv_version S with V11 => Ok (CRaised VNone VNone VNone) | V12 => Err AttributeError end)).
Proof. exact any_reply. Qed.
Print Assumptions C93_names_refuted.

Definition n_message (n : string) : node := Elem (clark "urn:geology" n) [("depth", "12")] [Elem (clark "urn:geology" "slip") [] [Text "3"]].
Definition n_body (v : soapver) (n : string) : node := Elem (clark (soap_ns v) "Body") [] [Text " "; n_message n; Comment "c"].
Definition n_parse (v : soapver) (s : string) : res node :=
  Ok (Elem (clark (soap_ns v) "Envelope") [] [Text " "; n_body v s]).
Definition n_P (v : soapver) : platform :=
  mkPlat ex_oracle (soap_env echo_U 10%nat) 10%nat echo_G 10%nat (n_parse v) show (fun _ => Ok tt) (fun _ => Ok tt) (fun _ => "Traceback").
Example C93_names_nonvacuous :
  (forall v, soap_platform (n_P v) /\
    (forall n, In n ["message"; "Fault"; "survey"] -> envelope_of (Elem (clark (soap_ns v) "Envelope") [] [Text " "; n_body v n]) None (n_body v n) /\
      any_message v (n_body v n) (n_message n)) /\
    ~ children_called "Fault" (n_body v "Fault") [] /\ children_called "Fault" (n_body v "message") []) /\
  stub_call (n_P V11) echo_service (v_peer "Fault") tt "Echo" (VObj "EchoRequest" None [("value", VStr "hello")]) VNone = (tt, Ok (CRaised VNone VNone VNone)) /\
  (exists x, stub_call (n_P V11) echo_service (v_peer "message") tt "Echo" (VObj "EchoRequest" None [("value", VStr "hello")]) VNone =
    (tt, Ok (CReturned (VObj "EchoResponse" (Some x) [("value", VNone)]) VNone))).
Proof.
  split; [|split; [vm_compute; reflexivity|eexists; vm_compute; reflexivity]].
  assert (N : forall x, existsb (fun y => match y with PI _ => true | _ => false end) (el_kids x) = false -> no_instructions x).
  { intros x H s I. assert (X : existsb (fun y => match y with PI _ => true | _ => false end) (el_kids x) = true) by (apply existsb_exists; exists (PI s); now split). congruence. }
  intros v. split; [exists echo_U, 10%nat, 6%nat; split; reflexivity|]. split; [|split].
  - intros n Hn. split.
    + destruct v; (split; [now apply N|]; split; [reflexivity|]; split; [reflexivity|]; split; [discriminate|discriminate]).
    + split; [now apply N|]. split; [|split; [|split; [eexists _, _, _; reflexivity|]; exists [" "], [Comment "c"]; reflexivity]];
        destruct Hn as [<- | [<- | [<- | []]]]; try (left; vm_compute; reflexivity);
        right; eexists; (split; [vm_compute; reflexivity|]); (split; [discriminate|]); (split; [now apply N|]);
        intros p Hp; try destruct v; cbn in Hp; repeat destruct Hp as [<- | Hp]; try contradiction; vm_compute; reflexivity.
  - destruct v; discriminate.
  - destruct v; reflexivity.
Qed.
