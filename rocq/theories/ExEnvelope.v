(** Examples for C93: envelopes of other implementations. *)
From Coq Require Import String Ascii List ZArith NArith Bool.
From Verif Require Import PyBase Xml PyVal XsdSimple XsdComplex XsdSchema PyHttp Soap Dispatch Client SpecSoap SpecDispatch SpecEnvelope ExEnv ExSoap.
Import ListNotations.
Open Scope string_scope.
Open Scope list_scope.

Definition v_message : node := Elem (clark "urn:echo" "echoRequest") [] [Elem (clark "urn:echo" "value") [] [Text "hello"]].
Definition v_block : node := Elem (clark "urn:tx" "transaction") [(clark (soap_ns V11) "mustUnderstand", "1")] [Text "5"].
Definition v_header : node := Elem (clark (soap_ns V11) "Header") [] [Text " "; v_block].
Definition v_body : node := Elem (clark (soap_ns V11) "Body") [("id", "b")] [Text " "; v_message; Text " "; Comment "end"].
Definition v_doc (v : soapver) (header : list node) : node :=
  Elem (clark (soap_ns v) "Envelope") [("encodingStyle", "urn:e")] ([Text " "; Comment "hi"] ++ header ++ [Text " "; v_body; Elem "extra" [] []]).
Definition v_fault (v : soapver) : node :=
  match v with
  | V11 => Elem (clark (soap_ns V11) "Fault") []
      [Elem "faultstring" [("lang", "en")] [Text "no"]; Comment "c"; Elem "faultcode" [] [Text "q:Server"]; Elem "detail" [] [Elem "why" [] []]]
  | V12 => Elem (clark (soap_ns V12) "Fault") []
      [Elem (clark (soap_ns V12) "Code") [] [Text " "; Elem (clark (soap_ns V12) "Value") [] [Text "q:Receiver"]; Elem (clark (soap_ns V12) "Subcode") [] []];
       Elem (clark (soap_ns V12) "Reason") [] [Elem (clark (soap_ns V12) "Text") [(xml_lang, "de")] [Text "nein"]];
       Elem (clark (soap_ns V12) "Role") [] [Text "urn:r"]; Elem (clark (soap_ns V12) "Detail") [] []]
  end.
Definition v_parse (s : string) : res node :=
  match assoc s [("hello", soap_envelope (soap_ns V11) [] [v_message]); ("soap12", soap_envelope (soap_ns V12) [] [v_message]);
                 ("noisy", v_doc V11 []); ("header", v_doc V11 [v_header]);
                 ("reply", soap_envelope (soap_ns V11) [] [Elem (clark "urn:echo" "echoResponse") [] [Elem (clark "urn:echo" "value") [] [Text "hello"]]]);
                 ("fault", Elem (clark (soap_ns V11) "Envelope") [] [Elem (clark (soap_ns V11) "Body") [] [Text " "; v_fault V11]])] with
  | Some x => Ok x
  | None => Err (Exn EXMLSyntaxError "Start tag expected")
  end.
Definition v_valid (x : node) : res unit :=
  if called "transaction" x then Err (Exn EDocumentInvalid "no declaration") else Ok tt.
Definition v_P : platform :=
  mkPlat ex_oracle (soap_env echo_U 10%nat) 10%nat echo_G 10%nat v_parse show v_valid (fun _ => Ok tt) (fun _ => "Traceback").
Definition v_D : dispatcher (list string) := mkDisp echo_service [] [] "" [] false.
Definition v_post (content : string) : request := new_request (echo_environ [("REQUEST_METHOD", "POST")]) content.
Definition v_peer (answer : string) : transport unit := fun w _ _ => (w, Ok answer).

Lemma v_platform : soap_platform v_P.
Proof. exists echo_U, 10%nat, 6%nat. split; reflexivity. Qed.
Lemma v_envelope v : envelope_of (v_doc v []) None v_body /\ envelope_of (v_doc v [v_header]) (Some v_header) v_body /\ message_of v_body v_message.
Proof.
  split; [|split].
  - split; [intros s H; cbn in H; repeat destruct H as [H | H]; try discriminate H; destruct H|]. split; [reflexivity|]. split; [reflexivity|]. split; discriminate.
  - split; [intros s H; cbn in H; repeat destruct H as [H | H]; try discriminate H; destruct H|]. split; [reflexivity|]. split; [reflexivity|]. split; [discriminate|].
    intros y E. injection E as <-. discriminate.
  - split; [intros s H; cbn in H; repeat destruct H as [H | H]; try discriminate H; destruct H|]. split; [reflexivity|]. split; [reflexivity|].
    split; [eexists _, _, _; reflexivity|]. exists [" "], [Text " "; Comment "end"]. reflexivity.
Qed.
Lemma v_reaches : exists rq', reaches_handler v_P v_D (v_post "hello") rq' "echo" /\ rq_method rq' = Some echo_method.
Proof.
  exists (mkReq (rq_environ (v_post "hello")) "hello" VNone (VObj "EchoRequest" (Some v_message) [("value", VStr "hello")]) (Some echo_method)).
  split; [|reflexivity]. exists v_message, VNone, echo_method, (TComplex "EchoRequest"), VNone.
  split. { exists (soap_envelope (soap_ns V11) [] [v_message]). eexists. eexists.
    split; [reflexivity|]. split; [vm_compute; reflexivity|]. split; [reflexivity|]. split; [reflexivity|]. split; [discriminate|reflexivity]. }
  split; [now left|]. split; [reflexivity|]. split; [vm_compute; reflexivity|]. split; [reflexivity|]. split; [left; now split|]. split; [reflexivity|].
  split. { right. exists "echoRequest". eexists. split; [reflexivity|]. split; [|vm_compute; reflexivity]. reflexivity. }
  split; [vm_compute; reflexivity|]. repeat split.
Qed.
Lemma v_not_wsa : ~ wsa_block v_block.
Proof. intros (n & a & k & _ & E). injection E as E _ _. discriminate E. Qed.
Lemma v_faults : fault_in V11 (Elem (clark (soap_ns V11) "Body") [] [Text " "; v_fault V11]) "q:Server" "no" None /\
  fault_in V12 (Elem (clark (soap_ns V12) "Body") [] [v_fault V12]) "q:Receiver" "nein" (Some "urn:r").
Proof.
  assert (N : forall x, existsb (fun y => match y with PI _ => true | _ => false end) (el_kids x) = false -> no_instructions x).
  { intros x H s I. assert (X : existsb (fun y => match y with PI _ => true | _ => false end) (el_kids x) = true) by (apply existsb_exists; exists (PI s); now split). congruence. }
  split; (split; [now apply N|]; split; [reflexivity|]; eexists; split; [reflexivity|]; split; [discriminate|]; split; [now apply N|]).
  - split; [split; [discriminate|]; eexists _, _; split; [reflexivity|discriminate]|].
    split; [split; [discriminate|]; eexists _, _; split; [reflexivity|discriminate]|reflexivity].
  - split; [|split].
    + eexists. split; [reflexivity|]. split; [discriminate|]. split; [now apply N|]. split; [discriminate|]. eexists _, _. split; [reflexivity|discriminate].
    + eexists. split; [reflexivity|]. split; [discriminate|]. split; [now apply N|]. split; [discriminate|]. eexists _, _. split; [reflexivity|discriminate].
    + split; [discriminate|]. eexists _, _. split; [reflexivity|discriminate].
Qed.
