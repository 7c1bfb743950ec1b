(** Specification vocabulary for objects of complex types: what their fields
    may hold and how they change under assignment and append. *)
From Coq Require Import String Ascii List ZArith NArith Bool.
From Verif Require Import PyBase Xml PyVal XsdSimple XsdComplex.
Import ListNotations.
Open Scope Z_scope.

(** [v] is a value the type [t] hands out when it accepts something. *)
Definition accepted_by (O : oracle) (E : env) (t : ftype) (v : pyval) : Prop :=
  exists w, type_accept O E t w = Ok v.

(** A scalar field may hold NIL if it is nillable, else an accepted value. *)
Definition may_hold (O : oracle) (E : env) (f : field) (v : pyval) : Prop :=
  (v = VNil /\ f_nillable f = true) \/ accepted_by O E (f_type f) v.

Definition is_list (f : field) : bool := match f_kind f with KList => true | _ => false end.

(** A run of assignments [obj.name = value], each of which may raise; one that
    raises is caught and leaves the object as it is. *)
Fixpoint assign_all (O : oracle) (E : env) (fields : list field) (fs : list (string * pyval))
    (ops : list (string * pyval)) : list (string * pyval) :=
  match ops with
  | [] => fs
  | (name, v) :: t =>
      assign_all O E fields (match setattr O E fields fs name v with Ok fs' => fs' | Err _ => fs end) t
  end.

(** A run of [obj.list.append(v)], each of which may raise. *)
Fixpoint append_all (O : oracle) (E : env) (f : field) (l : list pyval) (vs : list pyval)
    : list pyval :=
  match vs with
  | [] => l
  | v :: t => append_all O E f (match tl_append O E f l v with Ok l' => l' | Err _ => l end) t
  end.

(** The declared upper bound allows [n] items. *)
Definition max_allows (m : occurs) (n : Z) : Prop :=
  match m with OInt z => n <= z | _ => True end.
Definition min_allows (m : option Z) (n : Z) : Prop :=
  match m with Some z => z <= n | None => True end.

(** [ci] is [c] or a subclass of it. *)
Definition subclass (E : env) (ci c : string) : Prop :=
  exists d, e_cls E ci = Some d /\ In c (cd_mro d).
