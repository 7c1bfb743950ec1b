(** A client and a server generated from one WSDL document. *)
From Coq Require Import String Ascii List ZArith NArith Bool.
From Verif Require Import PyBase PfBase PyRe Xml PyVal XsdSimple XsdComplex XsdSchema PyHttp ExEnv LibClasses Py2Xsd SpecXsd XsdMeta Dispatch Soap Client Py2Wsdl Xsd2Py PyLoad
  SpecGenCode ExGenCode PyUrl Wsdl2Py PyService PyInterop SpecParse SpecRound SpecSoap SpecDispatch SpecHttp SpecClient SpecUrl SpecService SpecInterop ExSoap PfClient3 ExService.
Import ListNotations.
Open Scope nat_scope.
Open Scope string_scope.
Open Scope list_scope.

Definition i_document (ops abstract : list node) : node :=
  wel "definitions" [("name", "Echo"); ("targetNamespace", "urn:echoing")]
    [wel "types" []
       [xel "schema" [("targetNamespace", "urn:echo"); ("elementFormDefault", "qualified")]
          [e_type "echo" [e_sequence [e_element "value" [("type", "xs:string")]]];
           e_element "echoRequest" [("type", "sns:echo")]; e_element "echoResponse" [("type", "sns:echo")]]];
     v_message "in" [v_part "body" "sns:echoRequest"]; v_message "out" [v_part "body" "sns:echoResponse"];
     wel "portType" [("name", "Echoing")] abstract;
     v_binding "EchoBinding" "tns:Echoing" "document" soap_http ops;
     wel "service" [("name", "Echo")] [v_port "EchoPort" "tns:EchoBinding" "http://example.org/echo"]].
Definition i_ab (name : string) : node := v_abstract name "tns:in" (Some "tns:out").
Definition i_doc : node := i_document [v_operation "Echo" [("soapAction", "urn:echo#echo")] []] [i_ab "Echo"].
Definition i_d : pyval := Eval vm_compute in match parse_obj 14 ex_oracle (lib_env 10) (wn V11 "Definitions") i_doc with Ok x => x | Err _ => VNone end.
Lemma i_read : parse_obj 14 ex_oracle (lib_env 10) (wn (version_from_xml i_doc) "Definitions") i_doc = Ok i_d.
Proof. vm_compute. reflexivity. Qed.

Definition i_op : op_plan := mkOp "Echo" (Some "urn:echo#echo") (mkPp "body" "echoRequest") (Some (mkPp "body" "echoResponse")) None.
Definition i_port : port_plan := mkPort "EchoPort" (mkAddr "http" "example.org" "/echo" None None) "document" [i_op].
Definition i_plan : list (list (option port_plan)) := [[Some i_port]].
Lemma i_states : states_document i_d "urn:echoing" ["urn:echo"] i_plan.
Proof.
  split; [hs|]. split. { eexists _, _, _. split; [hs|]. split; [hs|]. constructor; [hs|constructor]. }
  eexists _, _. split; [hs|]. constructor; [|constructor]. eexists _, _. split; [hs|].
  constructor; [|constructor].
  split; [hs|]. split. { eexists. split; hs. }
  exists (nth 0 (items i_d "bindings") VNone). eexists _, _, _. split. { eexists _, "EchoBinding". split; [hs|]. split; [refer_to|called 0 "bindings" i_d]. }
  split; [hs|]. split; [hs|]. split; [hs|]. split; [hs|]. constructor; [|constructor].
  split; [hs|]. split. { intros x [<-|[<-|[]]]; eexists; (split; [hs|right; eexists; hs]). }
  split. { eexists. split; [hs|]. split; hs. }
  exists (nth 0 (items (nth 0 (items i_d "portTypes") VNone) "operations") VNone). split.
  { eexists _, "Echoing", (nth 0 (items i_d "portTypes") VNone). split; [hs|]. split; [refer_to|]. split; [called 0 "portTypes" i_d|].
    split; [vm_compute; intuition discriminate|]. called 0 "operations" (nth 0 (items i_d "portTypes") VNone). }
  split.
  - exists (nth 0 (items i_d "messages") VNone). eexists _, _, _. split.
    { eexists _, _, "in". split; [hs|]. split; [hs|]. split; [refer_to|called 0 "messages" i_d]. }
    split; [hs|]. split; [hs|]. split; [hs|]. split; [refer_to|discriminate].
  - exists (nth 1 (items i_d "messages") VNone). eexists _, _, _. split.
    { eexists _, _, "out". split; [hs|]. split; [hs|]. split; [refer_to|called 1 "messages" i_d]. }
    split; [hs|]. split; [hs|]. split; [hs|]. split; [refer_to|discriminate].
Qed.
Lemma i_usable : Forall usable_port (soap_ports i_plan).
Proof.
  constructor; [|constructor]. split; [name|]. split; [address|]. split; [nothing_empty|]. split; [without_tac|].
  split; [|repeat constructor; cbn; intuition discriminate]. constructor; [|constructor].
  split; [name|]. split; [split; [name|quote]|]. split; [intros p [= <-]; split; [name|quote]|]. split; [intros a [= <-]; quote|discriminate].
Qed.
Lemma i_tns : quotable "urn:echoing".
Proof. quote. Qed.
Definition i_md5 (s : string) : string := "c0ffe".
Lemma i_hex : forall s, In s ["urn:echo"] -> hex5 (i_md5 s).
Proof. intros s [<-|[]]. split; [reflexivity|]. every_char. Qed.
Definition i_elements : elements_of := [("echoRequest", 0); ("echoResponse", 1)].
Definition i_state : wstate := mkWst (mkWorld [] []) [("Schema_c0ffe", WvSchema i_elements); ("Echo", WvOther)].
Lemma i_bound : schemas_bound i_md5 i_state ["urn:echo"] [i_elements].
Proof. constructor; [reflexivity|constructor]. Qed.
Lemma i_client : Forall (fun p => Forall client_op (po_ops p)) (soap_ports i_plan).
Proof. constructor; [|constructor]. constructor; [|constructor]. vm_compute; intuition discriminate. Qed.
Lemma i_server : Forall (fun p => Forall server_op (po_ops p)) (soap_ports i_plan) /\ soap_first i_plan.
Proof.
  split.
  - constructor; [|constructor]. constructor; [|constructor]. served.
  - intros ps [<-|[]]. discriminate.
Qed.
Lemma i_names : NoDup (map po_name (soap_ports i_plan)).
Proof. repeat constructor. intros []. Qed.

(** Importing a generated module, and its service. *)
Definition i_import (server : bool) (doc : node) : res wstate :=
  c <- code_from_wsdl 14 ex_oracle (lib_env 10) i_md5 v_checked server doc ;; exec_service g_rt 0 i_state c.
Definition i_generated (server : bool) (doc : node) : gservice :=
  match i_import server doc with
  | Ok st => match assoc "EchoPort_SERVICE" (st_names st) with Some (WvService s) => s | _ => mkGsv "" "" "" [] V11 [] end
  | Err _ => mkGsv "" "" "" [] V11 []
  end.

(** The programs: the user's functions, the dispatcher for the generated service,
    and a platform that reads the documents of the example. *)
Definition i_fn (name : string) : handler (list string) := fun s body =>
  match body with
  | VObj _ _ [("value", VStr "boom")] => (s, Err (SOAPError "Server" "it blew up" (Some "urn:me")))
  | VObj _ _ [("value", VStr v)] => ((name :: v :: fst s, snd s), Ok (RPay (PVal (response_of v))))
  | _ => (s, Err ValueError)
  end.
Definition i_D (doc : node) : dispatcher (list string) := mkDisp (as_service (i_generated true doc) [0] (fun _ => "") i_fn) [] [] "<wsdl/>" [] true.
Definition i_message (tag s : string) : node :=
  soap_envelope (envelope_ns V11) [] [Elem (clark "urn:echo" tag) [] [Elem (clark "urn:echo" "value") [] [Text s]]].
Definition i_fault : node := soap_envelope (envelope_ns V11) [] [fault11 (envelope_ns V11) "Server" "it blew up" None].
Definition i_docs : list node := [i_message "echoRequest" "hi"; i_message "echoRequest" "boom"; i_message "echoResponse" "hi"; i_fault].
Definition i_P : platform :=
  mkPlat ex_oracle call_env 10 echo_G 10
    (fun s => match find (fun d => String.eqb (show d) s) i_docs with Some d => Ok d | None => Err (Exn EXMLSyntaxError "") end)
    show (fun _ => Ok tt) (fun _ => Ok tt) (fun _ => "").
Definition i_call (doc : node) (a : hosting) (op s : string) : list string * res outcome :=
  stub_call i_P (as_service (i_generated false doc) [0] (fun _ => "") i_fn) (post_through a i_P (i_D doc) (fun _ => None)) [] op (request_of s) VNone.

Lemma i_platform : soap_platform i_P.
Proof. exists echo_U, 10, 6. split; reflexivity. Qed.
Lemma i_sendable s : s <> "" -> xml_text_ok s = true ->
  sendable i_P call_classes [0] "echoRequest" (request_of s) /\ sendable i_P call_classes [0] "echoResponse" (response_of s).
Proof.
  intros H1 H2. split.
  - exists "EchoRequest". split; [eexists; split; vm_compute; reflexivity|]. split; [now apply call_request|]. repeat split; discriminate.
  - exists "EchoResponse". split; [eexists; split; vm_compute; reflexivity|]. split; [now apply call_response|]. repeat split; discriminate.
Qed.
Lemma i_distinguished a : distinguished a V11 (fun _ => None) i_port i_op.
Proof.
  destruct a; split; try (intros k _; reflexivity); try (intros o' [<-|[]] _; reflexivity).
  exists "urn:echo#echo". split; [reflexivity|]. split; [discriminate|]. split; [vm_compute; intuition discriminate|]. split; [discriminate|].
  intros o' [<-|[]] _. reflexivity.
Qed.

(** Two operations that take the same element. *)
Definition i_two : node :=
  i_document [v_operation "Echo" [("soapAction", "urn:echo#echo")] []; v_operation "Shout" [("soapAction", "urn:echo#shout")] []] [i_ab "Echo"; i_ab "Shout"].
