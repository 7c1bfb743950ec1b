(** Vocabulary for what parsing reads and ignores. *)
From Coq Require Import String Ascii List ZArith NArith Bool.
From Verif Require Import PyBase Xml PyVal XsdSimple XsdComplex.
Import ListNotations.
Open Scope Z_scope.

(** An object without the memory of the elements it was parsed from: its field
    values only. *)
Fixpoint erase (v : pyval) : pyval :=
  match v with
  | VObj c _ fs => VObj c None (map (fun p => (fst p, erase (snd p))) fs)
  | VList t l => VList t (map erase l)
  | _ => v
  end.

(** The classes whose fields are read from the same element as those of [c]:
    [c] and, transitively, the classes its references refer to. *)
Inductive level (E : env) : string -> string -> Prop :=
| lv_self c : level E c c
| lv_group c d f ct c' : e_cls E c = Some d -> In f (cd_fields d) -> is_group f = true ->
    f_type f = TComplex ct -> level E ct c' -> level E c c'.

(** [f] is a child-element field of [c] or of a group in it. *)
Definition reads (E : env) (c : string) (f : field) : Prop :=
  exists c' d', level E c c' /\ e_cls E c' = Some d' /\ In f (cd_fields d') /\ is_plain f = true.
(** [name] is the name of an attribute of [c] or of a group in it. *)
Definition reads_attr (E : env) (c : string) (name : string) : Prop :=
  exists c' d' f, level E c c' /\ e_cls E c' = Some d' /\ In f (cd_fields d') /\
    is_attr f = true /\ f_name f = name.

(** The local part of the element's tag is the field's name or tag name. *)
Definition names_field (x : node) (f : field) : Prop :=
  exists t a k, x = Elem t a k /\ (local_name t = f_name f \/ f_tag f = Some (local_name t)).

(** Nothing at this level is a Choice, and references refer to classes. *)
Definition ordinary (E : env) (c : string) : Prop :=
  forall c' d', level E c c' -> e_cls E c' = Some d' ->
    cd_ind d' <> IChoice /\
    forall f, In f (cd_fields d') -> is_group f = true -> exists ct, f_type f = TComplex ct.

(** [noise E c x x']: the elements [x] and [x'], to be read as class [c],
    differ by things that must not matter, at this level or deeper. *)
Inductive noise (E : env) : string -> node -> node -> Prop :=
| nz_comment c t a k1 k2 s : ordinary E c ->
    noise E c (Elem t a (k1 ++ k2)) (Elem t a (k1 ++ Comment s :: k2))
| nz_text c t a k1 k2 s : ordinary E c ->
    noise E c (Elem t a (k1 ++ k2)) (Elem t a (k1 ++ Text s :: k2))
| nz_element c t a k1 k2 t' a' k' : ordinary E c ->
    (forall f, reads E c f -> ~ names_field (Elem t' a' k') f) ->
    noise E c (Elem t a (k1 ++ k2)) (Elem t a (k1 ++ Elem t' a' k' :: k2))
| nz_attribute c t a1 a2 k name value : ordinary E c ->
    ~ reads_attr E c name -> name <> xsi_nil ->
    noise E c (Elem t (a1 ++ a2) k) (Elem t (a1 ++ (name, value) :: a2) k)
| nz_inside c t a k1 k2 s s' (cls : field -> string) : ordinary E c ->
    (forall f, reads E c f -> names_field s f -> f_type f = TComplex (cls f)) ->
    (forall f, reads E c f -> names_field s f -> noise E (cls f) s s') ->
    (exists f, reads E c f /\ names_field s f) ->
    noise E c (Elem t a (k1 ++ s :: k2)) (Elem t a (k1 ++ s' :: k2))
| nz_sym c x x' : noise E c x x' -> noise E c x' x
| nz_trans c x y z : noise E c x y -> noise E c y z -> noise E c x z.

(** The children that belong to field [f], in document order. *)
Definition belongs (f : field) (x : node) : bool :=
  match x with
  | Elem t _ _ => (String.eqb (local_name t) (f_name f)
                   || match f_tag f with Some g => String.eqb (local_name t) g | None => false end)%bool
  | _ => false
  end.
Definition is_pi (x : node) : bool := match x with PI _ => true | _ => false end.
