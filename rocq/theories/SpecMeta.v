(** Vocabulary for class definitions. *)
From Coq Require Import String Ascii List ZArith NArith Bool.
From Verif Require Import PyBase PyVal XsdSimple XsdComplex XsdMeta.
Import ListNotations.
Open Scope nat_scope.
Open Scope string_scope.
Open Scope list_scope.

(** Class [c] declares the attribute [name] itself. *)
Definition declares (w : world) (c : nat) (name : string) (v : attrval) : Prop :=
  exists k, nth_error (w_classes w) c = Some k /\ assoc name (k_dict k) = Some v.
(** The ancestors of [c], itself first. *)
Definition lineage (w : world) (c : nat) : list nat :=
  match nth_error (w_classes w) c with Some k => k_mro k | None => [] end.
(** The Element object [d] is the field [name] of class [c]: some class in the
    lineage declares it, and none before that one declares the name. *)
Definition has_field (w : world) (c : nat) (name : string) (d : nat) : Prop :=
  exists before b after, lineage w c = before ++ b :: after /\ declares w b name (ADesc d) /\
    forall a v, In a before -> ~ declares w a name v.
(** No Element object is a field of class [c] under two names. *)
Definition one_name (w : world) (c : nat) : Prop :=
  forall n1 n2 d, has_field w c n1 d -> has_field w c n2 d -> n1 = n2.
(** Nor in the whole program. *)
Definition one_name_each (w : world) : Prop :=
  forall c1 c2 n1 n2 d, has_field w c1 n1 d -> has_field w c2 n2 d -> n1 = n2.
(** The Element object [d] of a program. *)
Definition element (w : world) (d : nat) (f : field) : Prop := nth_error (w_store w) d = Some f.
(** Equal but for the name. *)
Definition same_declaration (f g : field) : Prop :=
  f_kind f = f_kind g /\ f_type f = f_type g /\ f_tag f = f_tag g /\ f_min f = f_min g /\ f_max f = f_max g /\
  f_nillable f = f_nillable g /\ f_default f = f_default g /\ f_ns f = f_ns g.
