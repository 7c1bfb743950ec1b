(** Vocabulary for what is printed. *)
From Coq Require Import String Ascii List ZArith NArith Bool.
From Verif Require Import PyBase PyVal XsdComplex.
Import ListNotations.
Open Scope nat_scope.
Open Scope string_scope.
Open Scope list_scope.

(** [part] is somewhere in [s]. *)
Definition in_text (part s : string) : Prop := exists before after, s = (before ++ part ++ after)%string.
(** An element field: neither an XML attribute nor a group or content. *)
Definition element_field (f : field) : Prop :=
  f_kind f = KElement \/ f_kind f = KList \/ f_kind f = KClassNamed.
(** Two objects of one class with the same values in their element fields. *)
Definition same_elements (d : classdef) (fs fs' : list (string * pyval)) : Prop :=
  forall f, In f (cd_fields d) -> element_field f -> assoc (f_name f) fs = assoc (f_name f) fs'.
(** Objects are at most [n] deep in [v], and their classes are there. *)
Inductive at_most_deep (E : env) : nat -> pyval -> Prop :=
| Deep_obj n c d xe fs : e_cls E c = Some d -> (forall name x, assoc name fs = Some x -> at_most_deep E n x) -> at_most_deep E (S n) (VObj c xe fs)
| Deep_other n v : (forall c xe fs, v <> VObj c xe fs) -> at_most_deep E n v.
