(** What SOAP messages look like on the wire. *)
From Coq Require Import String Ascii List ZArith NArith Bool.
From Verif Require Import PyBase Xml PyVal XsdSimple XsdComplex PyHttp Soap.
Import ListNotations.
Open Scope string_scope.
Open Scope list_scope.

(** Envelope and Body elements in the namespace [ns] (SOAP 1.1 section 4, SOAP
    1.2 part 1 section 5). *)
Definition soap_envelope (ns : string) (headers body : list node) : node :=
  Elem (clark ns "Envelope") [] (headers ++ [Elem (clark ns "Body") [] body]).
(** A SOAP 1.1 fault: unqualified children (section 4.4). *)
Definition fault11 (ns code message : string) (actor : option string) : node :=
  Elem (clark ns "Fault") []
    ([Elem "faultcode" [] [Text code]; Elem "faultstring" [] [Text message]]
     ++ match actor with Some a => [Elem "faultactor" [] [Text a]] | None => [] end).
(** A SOAP 1.2 fault (section 5.4). *)
Definition fault12 (ns code message : string) (actor : option string) : node :=
  Elem (clark ns "Fault") []
    ([Elem (clark ns "Code") [] [Elem (clark ns "Value") [] [Text code]];
      Elem (clark ns "Reason") [] [Elem (clark ns "Text") [(xml_lang, "en")] [Text message]]]
     ++ match actor with Some a => [Elem (clark ns "Role") [] [Text a]] | None => [] end).

(** A text that survives: not empty, no control characters. *)
Definition text_good (s : string) : Prop := s <> "" /\ xml_text_ok s = true.
Definition opt_good (o : option string) : Prop := match o with Some s => text_good s | None => True end.

(** What a client reads from a fault response: parse the envelope, take the
    Fault of its Body, split it. *)
Definition client_reads_fault (n : nat) (O : oracle) (E : env) (v : soapver) (doc : node)
    : res (pyval * pyval * pyval) :=
  e <- parse_obj n O E (envelope_cls v) doc ;;
  b <- py_get e "Body" ;;
  f <- py_get b "Fault" ;;
  parse_fault_message v f.
