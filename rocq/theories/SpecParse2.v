(** Vocabulary for what single fields are read from. *)
From Coq Require Import String Ascii List ZArith NArith Bool.
From Verif Require Import PyBase Xml PyVal XsdSimple XsdComplex SpecRound.
Import ListNotations.
Open Scope Z_scope.

(** Only elements, lists and attributes, in namespaces that can be written in a
    tag; field names distinct. *)
Definition flat_class (d : classdef) : Prop :=
  NoDup (map f_name (cd_fields d)) /\
  (forall f, In f (cd_fields d) -> (f_kind f = KElement \/ f_kind f = KList \/ f_kind f = KAttribute) /\
     ns_good (f_ns f)) /\
  ns_good (match cd_schema d with Some si => si_tns si | None => None end).

(** No other element field writes an element that [f] would pick up. *)
Definition alone (d : classdef) (f : field) : Prop :=
  forall g, In g (cd_fields d) -> is_plain g = true -> g <> f -> ~ confused g f.

(** What a field holds in a fresh instance of the class. *)
Definition fresh_value (O : oracle) (E : env) (c : string) (f : field) (v : option pyval) : Prop :=
  exists fs0, new_instance O E c = Ok fs0 /\ v = assoc (f_name f) fs0.

(** Lexical forms of the boolean true in XML Schema. *)
Definition xs_true (s : string) : Prop := s = "true"%string \/ s = "1"%string.
