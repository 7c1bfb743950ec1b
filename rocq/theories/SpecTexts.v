(** Vocabulary for XML text, schemas and documents. *)
From Coq Require Import String Ascii List ZArith Bool.
From Verif Require Import PyBase PyRe Xml PyVal XsdSimple XsdComplex LibClasses Py2Xsd SpecRound SpecValid.
Import ListNotations.
Open Scope nat_scope.
Open Scope string_scope.
Open Scope list_scope.

(** The validator accepts every element that is valid against the schema
    document; it accepts no other. *)
Definition accepts_all (mean : string -> re) (doc : xdocument) (check : node -> res unit) : Prop :=
  forall x, valid mean doc x -> check x = Ok tt.
Definition accepts_only (mean : string -> re) (doc : xdocument) (check : node -> res unit) : Prop :=
  forall x, check x = Ok tt -> valid mean doc x.
(** The element [x], written and read again, is the same up to white space between elements. *)
Definition survives (fromstring : string -> res node) (tostring : node -> string) (x : node) : Prop :=
  exists doc, fromstring (tostring x) = Ok doc /\ layout (wire x) doc.

(** The root of the documents of class [c] is the Element [f]: the first of its
    fields that is neither an attribute nor a reference. *)
Definition root_of (E : env) (c : string) (f : field) : Prop :=
  exists d before after, e_cls E c = Some d /\ cd_fields d = before ++ f :: after /\ f_kind f = KElement /\
    Forall (fun g => f_kind g = KAttribute \/ f_kind g = KRef \/ f_kind g = KContent) before.
(** What the text says when its root is of class [ct]: nothing if marked as nil. *)
Definition read_as (n : nat) (O : oracle) (E : env) (fromstring : string -> res node) (ct text : string) (v : pyval) : Prop :=
  exists x, fromstring text = Ok x /\
    (el_get x (clark "http://www.w3.org/2001/XMLSchema-instance" "nil") = Some "true" /\ v = VNil \/
     el_get x (clark "http://www.w3.org/2001/XMLSchema-instance" "nil") <> Some "true" /\ parse_obj n O E ct x = Ok v).
