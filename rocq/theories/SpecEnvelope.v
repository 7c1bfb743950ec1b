(** Envelopes as other implementations of SOAP write them. *)
From Coq Require Import String Ascii List ZArith NArith Bool.
From Verif Require Import PyBase Xml PyVal XsdSimple XsdComplex Soap.
Import ListNotations.
Open Scope string_scope.
Open Scope list_scope.

(** The element [x] is called [n], in whatever namespace. *)
Definition called (n : string) (x : node) : bool :=
  match x with Elem t _ _ => String.eqb (local_name t) n | _ => false end.
Definition no_instructions (x : node) : Prop := forall s, ~ In (PI s) (el_kids x).
(** [l] are the children of [x] called [n]; whatever else there is - texts,
    comments, other elements, attributes - does not matter. *)
Definition children_called (n : string) (x : node) (l : list node) : Prop := filter (called n) (el_kids x) = l.
Definition given (x : node) : Prop := assoc xsi_nil (el_attrs x) <> Some "true".

(** [doc] is an envelope with this Header, if any, and this Body. *)
Definition envelope_of (doc : node) (header : option node) (body : node) : Prop :=
  no_instructions doc /\
  children_called "Header" doc (match header with Some y => [y] | None => [] end) /\
  children_called "Body" doc [body] /\
  given body /\ forall y, header = Some y -> given y.
(** The message in the Body: its first child.  No child is called message or Fault. *)
Definition message_of (body x : node) : Prop :=
  no_instructions body /\ children_called "message" body [] /\ children_called "Fault" body [] /\
  (exists t a k, x = Elem t a k) /\
  exists texts rest, el_kids body = map Text texts ++ x :: rest.

(** The text in the only child called [n]. *)
Definition child_text (n : string) (x : node) (s : string) : Prop :=
  s <> "" /\ exists t a, children_called n x [Elem t a [Text s]] /\ assoc xsi_nil a <> Some "true".
(** The fault in the Body: SOAP 1.1 section 4.4, SOAP 1.2 part 1 section 5.4. *)
Definition fault_says (v : soapver) (f : node) (code message : string) (actor : option string) : Prop :=
  no_instructions f /\
  match v with
  | V11 => child_text "faultcode" f code /\ child_text "faultstring" f message /\
           match actor with Some a => child_text "faultactor" f a | None => children_called "faultactor" f [] end
  | V12 => (exists c, children_called "Code" f [c] /\ given c /\ no_instructions c /\ child_text "Value" c code) /\
           (exists r, children_called "Reason" f [r] /\ given r /\ no_instructions r /\ child_text "Text" r message) /\
           match actor with Some a => child_text "Role" f a | None => children_called "Role" f [] end
  end.
Definition fault_in (v : soapver) (body : node) (code message : string) (actor : option string) : Prop :=
  no_instructions body /\ children_called "message" body [] /\
  exists f, children_called "Fault" body [f] /\ given f /\ fault_says v f code message actor.

(** The object [h] stands for the Header element, if there is one. *)
Definition header_from (header : option node) (h : pyval) : Prop :=
  match header with Some y => exists c, h = VObj c (Some y) [] | None => h = VNone end.
(** What the client gives back as header: the Header read as the class of the
    method; without either, None. *)
Definition reply_header (n : nat) (O : oracle) (E : env) (cls : option string) (header : option node) (h : pyval) : Prop :=
  match header, cls with
  | Some y, Some c => parse_obj n O E c y = Ok h
  | _, _ => h = VNone
  end.
