(** A small service used in the examples: an echo method. *)
From Coq Require Import String Ascii List ZArith NArith Bool.
From Verif Require Import PyBase Xml PyVal XsdSimple XsdComplex XsdSchema PyHttp Soap SpecSoap Dispatch SpecDispatch ExEnv.
Import ListNotations.
Open Scope string_scope.
Open Scope list_scope.

Definition echo_si : sinfo := {| si_tns := Some "urn:echo"; si_efd := qualified |}.
Definition echo_U : string -> option classdef := fun c =>
  assoc c
    [("EchoRequest", mkClass ["EchoRequest"; "ComplexType"] CKPlain [s_elem "value" string_type 1 false None] ISequence (Some echo_si));
     ("EchoResponse", mkClass ["EchoResponse"; "ComplexType"] CKPlain [s_elem "value" string_type 1 false None] ISequence (Some echo_si));
     ("Token", mkClass ["Token"; "ComplexType"] CKPlain [s_elem "user" string_type 1 false None] ISequence (Some echo_si))].
Definition echo_G : sgraph := fun _ =>
  mkSchema (Some "urn:echo") qualified
    [("echoRequest", mkSel (TComplex "EchoRequest") None); ("echoResponse", mkSel (TComplex "EchoResponse") None);
     ("shout", mkSel (TComplex "EchoRequest") (Some "sns:echoRequest")); ("lonely", mkSel (TComplex "EchoRequest") None)]
    [] [] None.

(** A readable, not an XML, serialisation. *)
Fixpoint show (x : node) : string :=
  match x with
  | Text s => s
  | Elem t a k => ("<" ++ t ++ ">" ++ String.concat "" (map show k) ++ "</>")%string
  | Comment s => ("<!--" ++ s ++ "-->")%string
  | PI s => ("<?" ++ s ++ "?>")%string
  end.

Definition echo_doc (tag value : string) : node :=
  soap_envelope (envelope_ns V11) [] [Elem (clark "urn:echo" tag) [] [Elem (clark "urn:echo" "value") [] [Text value]]].
(** The requests the example platform knows. *)
Definition echo_parse (s : string) : res node :=
  match assoc s
    [("hello", echo_doc "echoRequest" "hello");
     ("boom", echo_doc "echoRequest" "boom");
     ("invalid", echo_doc "echoRequest" "invalid");
     ("shout", echo_doc "shout" "hello");
     ("lonely", echo_doc "lonely" "hello");
     ("unknown", echo_doc "unknown" "hello");
     ("empty", soap_envelope (envelope_ns V11) [] []);
     ("nil", soap_envelope (envelope_ns V11) [Elem (clark (envelope_ns V11) "Header") [(xsi_nil, "true")] []] [Elem "x" [] []]);
     ("pi", Elem (clark (envelope_ns V11) "Envelope") [] [PI "php"; Elem (clark (envelope_ns V11) "Body") [] []]);
     ("none", Elem "some" [] [])] with
  | Some x => Ok x
  | None => Err (Exn EXMLSyntaxError "Start tag expected")
  end.
Definition echo_valid (x : node) : res unit :=
  match x with
  | Elem t _ [Elem _ _ [Text "invalid"]] => Err (Exn EDocumentInvalid "no way")
  | _ => Ok tt
  end.
Definition echo_P : platform :=
  mkPlat ex_oracle (soap_env echo_U 10%nat) 10%nat echo_G 10%nat echo_parse show echo_valid (fun _ => Ok tt) (fun _ => "Traceback").

(** The state of the application: a log. *)
Definition echo_handler : handler (list string) := fun s body =>
  match body with
  | VObj _ _ [("value", VStr "boom")] => (s, Err (SOAPError "Server" "it blew up" (Some "urn:me")))
  | VObj _ _ [("value", VStr v)] => ((v :: fst s, snd s), Ok (RPay (PVal (VObj "EchoResponse" None [("value", VStr v)]))))
  | _ => (s, Err ValueError)
  end.
Definition echo_method : method :=
  mkMethod "Echo" "urn:echo#echo" (IOName "echoRequest") (IOName "echoResponse") None None (Some "echo").
Definition echo_service : service (list string) :=
  mkService V11 [0%nat] [echo_method] None (fun _ => echo_handler).
Definition echo_D (mws : list (middleware (list string))) (hooks : list (string * hook (list string))) : dispatcher (list string) :=
  mkDisp echo_service mws hooks "<wsdl ${scheme}://${host}/>" [(Some "a.xsd", "<schema/>")] true.
Definition echo_environ (l : list (string * string)) : environ := fun k => assoc k l.
Definition echo_post (action content : string) : request :=
  new_request (echo_environ [("REQUEST_METHOD", "POST"); ("SOAPACTION", action)]) content.
Definition echo_get (q : string) : request :=
  new_request (echo_environ [("REQUEST_METHOD", "GET"); ("QUERY_STRING", q); ("HTTP_HOST", "h"); ("wsgi.url_scheme", "https")]) "".

Lemma echo_platform : soap_platform echo_P.
Proof. exists echo_U, 10%nat, 6%nat. split; reflexivity. Qed.
Lemma echo_plain : plain (echo_D [] []).
Proof. split; reflexivity. Qed.
