(** Vocabulary for "parsing gives an object or a ValueError". *)
From Coq Require Import String Ascii List ZArith NArith Bool.
From Verif Require Import PyBase Xml PyVal XsdDate XsdSimple XsdComplex.
Import ListNotations.
Open Scope Z_scope.

(** An answer, or one of the allowed errors. *)
Definition ok_or {A} (allowed : exn -> Prop) (r : res A) : Prop := (exists a, r = Ok a) \/ exists e, r = Err e /\ allowed e.
Definition ok_or_ValueError {A} (r : res A) : Prop := (exists a, r = Ok a) \/ r = Err ValueError.

(** No processing instruction among the nodes below. *)
Inductive no_pi : node -> Prop :=
| np_elem t a k : Forall no_pi k -> no_pi (Elem t a k)
| np_text s : no_pi (Text s)
| np_comment s : no_pi (Comment s).

(** Nesting depth of elements. *)
Fixpoint height (x : node) : nat :=
  match x with
  | Elem _ _ k => S (list_max (map height k))
  | _ => 0
  end.

Definition number (v : pyval) : Prop := num_of v <> None.
Definition number_facets (f : dfacets) : Prop :=
  (forall b, df_maxEx f = Some b -> number b) /\ (forall b, df_maxIn f = Some b -> number b) /\
  (forall b, df_minEx f = Some b -> number b) /\ (forall b, df_minIn f = Some b -> number b).

(** Types all of whose parsing errors are ValueErrors or allowed: a Date may raise a
    TypeError (C12: a zone without minutes) and an OverflowError, a DateTime an
    iso8601.ParseError and what that library raises for unusual texts. *)
Inductive tame (O : oracle) (allowed : exn -> Prop) : stype -> Prop :=
| tm_string c f : tame O allowed (SString c f)
| tm_lang f : tame O allowed (SLang f)
| tm_bool : tame O allowed SBoolean
| tm_time : tame O allowed STime
| tm_max : tame O allowed SMaxOccurs
| tm_integer c u : number_facets u -> tame O allowed (SInteger c u)
| tm_decimal c f : number_facets f -> (forall s e, o_float O s = Err e -> e = ValueError) -> tame O allowed (SDecimal c f)
| tm_date : allowed TypeError -> allowed (Exn EOverflowError "") -> tame O allowed SDate
| tm_datetime : allowed ParseError -> (forall s e, o_iso O s = Err e -> allowed e) -> tame O allowed SDateTime.

(** [c'] is read from the same element as [c]: a reference, or an alternative
    of a Choice. *)
Definition same_element (E : env) (c c' : string) : Prop :=
  exists d f, e_cls E c = Some d /\ In f (cd_fields d) /\ f_type f = TComplex c' /\
    (is_group f = true \/ cd_ind d = IChoice).

(** A set of classes that refer only to each other and to tame types, can be
    instantiated, and do not refer to themselves through references and Choice
    alone ([rank]). *)
Definition tame_classes (O : oracle) (allowed : exn -> Prop) (E : env) (P : string -> Prop) (rank : string -> nat) (top : nat) : Prop :=
  forall c, P c -> exists d, e_cls E c = Some d /\ NoDup (map f_name (cd_fields d)) /\
    (exists fs, new_instance O E c = Ok fs) /\
    (forall f, In f (cd_fields d) ->
       (forall s, f_type f = TSimple s -> tame O allowed s) /\ (forall c', f_type f = TComplex c' -> P c') /\
       (is_attr f = true -> (exists s, f_type f = TSimple s) /\ (f_default f = VNone \/ exists t, f_default f = VStr t))) /\
    (rank c <= top)%nat /\
    (forall c', same_element E c c' -> (rank c' < rank c)%nat).

(** [c] has a field, other than a list, whose type is [c']. *)
Definition embeds (E : env) (c c' : string) : Prop :=
  exists d f, e_cls E c = Some d /\ In f (cd_fields d) /\ f_kind f <> KList /\ f_type f = TComplex c'.

(** Classes whose fields embed only lower-ranked classes, and whose declared
    defaults are acceptable. *)
Definition layered (O : oracle) (E : env) (P : string -> Prop) (rank : string -> nat) : Prop :=
  forall c, P c -> exists d, e_cls E c = Some d /\ NoDup (map f_name (cd_fields d)) /\ In c (cd_mro d) /\
    (forall c', embeds E c c' -> P c' /\ (rank c' < rank c)%nat) /\
    (forall f, In f (cd_fields d) ->
       match f_kind f with
       | KList => True
       | KRef => exists c', f_type f = TComplex c'
       | KContent => exists v, field_accept O E f VNone = Ok v
       | _ => exists v, field_accept O E f (f_default f) = Ok v
       end).

(** ** Defaults of attributes *)

(** Defaults that reading keeps: every one of a text type; for the other types not
    the text "nil", and for Decimal not a decimal.Decimal. *)
Definition kept_default (s : stype) (v : pyval) : Prop :=
  match s, v with
  | SString _ _, _ | SLang _, _ => True
  | SDecimal _ _, VDec _ => False
  | _, VStr t => t <> "nil"%string
  | _, _ => True
  end.
(** A Python value of the type itself: True or False for Boolean, a date for Date,
    a datetime for DateTime, a time for Time. *)
Definition native_default (s : stype) (v : pyval) : Prop :=
  match s, v with
  | SBoolean, VBool _ | SDate, VDate _ _ _ | SDate, VXSDDate _ _ _ _ | SDateTime, VDateTime _ | STime, VTime _ => True
  | _, _ => False
  end.
