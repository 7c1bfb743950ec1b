(** Messages whose elements are called like the fields of the Body class. *)
From Coq Require Import String Ascii List ZArith NArith Bool.
From Verif Require Import PyBase Xml PyVal XsdSimple XsdComplex Soap SpecEnvelope.
Import ListNotations.
Open Scope string_scope.
Open Scope list_scope.

(** The parts of a Fault: SOAP 1.1 section 4.4, SOAP 1.2 part 1 section 5.4. *)
Definition fault_parts (v : soapver) : list string :=
  match v with V11 => ["faultcode"; "faultstring"; "faultactor"] | V12 => ["Code"; "Reason"; "Role"] end.
(** There is one child called [n], in whatever namespace, and none of its children
    is called like one of the [parts]. *)
Definition lone_child (n : string) (parts : list string) (body : node) : Prop :=
  exists y, children_called n body [y] /\ given y /\ no_instructions y /\ forall p, In p parts -> children_called p y [].
(** The message in the Body: its first child, whatever it is called. *)
Definition any_message (v : soapver) (body x : node) : Prop :=
  no_instructions body /\ (children_called "message" body [] \/ lone_child "message" ["name"; "value"] body) /\
  (children_called "Fault" body [] \/ lone_child "Fault" (fault_parts v) body) /\
  (exists t a k, x = Elem t a k) /\
  exists texts rest, el_kids body = map Text texts ++ x :: rest.
