(** Vocabulary for the orders of generated code. *)
From Coq Require Import String Ascii List ZArith NArith Bool Permutation.
From Verif Require Import PyBase GenOrder.
Import ListNotations.
Open Scope nat_scope.
Open Scope string_scope.
Open Scope list_scope.

(** [s] imports [t]. *)
Definition imports (s t : schema_doc) : Prop := In (sd_target t) (sd_imports s).
(** No schema comes before one it imports. *)
Definition imports_first (l : list schema_doc) : Prop :=
  forall l1 s l2 t, l = l1 ++ s :: l2 -> In t l2 -> ~ imports s t.
(** Everything a schema imports comes before it. *)
Definition all_imported (l : list schema_doc) : Prop :=
  forall l1 s l2 n, l = l1 ++ s :: l2 -> In n (sd_imports s) -> exists t, In t l1 /\ sd_target t = n.

(** The base of a type: that of its extension or else of its restriction. *)
Definition based_on (t : xsd_type) (b : string) : Prop :=
  (exists r, xt_content t = Some (Some b, r)) \/ xt_content t = Some (None, Some b).
(** A type without complexContent. *)
Definition plain_type (t : xsd_type) : Prop := xt_content t = None.
(** Every type either is plain or has a base, and names are not repeated. *)
Definition well_formed (l : list xsd_type) : Prop :=
  NoDup (map xt_name l) /\
  forall t, In t l -> xt_name t <> "" /\ (plain_type t \/ exists b, based_on t b /\ b <> "").
(** The bases are types of the list (named without a prefix), and following them
    from any type takes fewer than [n] steps: there is no cycle. *)
Definition local_bases (n : nat) (l : list xsd_type) : Prop :=
  exists depth : string -> nat,
    (forall t, In t l -> S (depth (xt_name t)) < n) /\
    forall t b, In t l -> based_on t b -> ~ In colon (list_ascii_of_string b) /\
      exists u, In u l /\ xt_name u = b /\ depth b < depth (xt_name t).
(** Every type comes after its base. *)
Definition bases_first (l : list xsd_type) : Prop :=
  forall l1 t l2 b, l = l1 ++ t :: l2 -> based_on t b -> exists u, In u l1 /\ xt_name u = b.

(** What the documentation of list.sort says, as far as it matters here: the
    result is a rearrangement; if [<] never raises and is a strict weak order
    (the order of some key) then the result is ordered and equal elements keep
    their order; a list of two or more elements is not sorted without comparing
    two of them. *)
Record list_sort (sort : sorter) : Prop := {
  ls_perm : forall lt l l', sort lt l = Ok l' -> Permutation l' l;
  ls_sorted : forall lt l (le : xsd_type -> xsd_type -> bool),
    (forall x y, In x l -> In y l -> lt x y = Ok (negb (le y x))) ->
    (forall x y, In x l -> In y l -> le x y = true \/ le y x = true) ->
    (forall x y z, In x l -> In y l -> In z l -> le x y = true -> le y z = true -> le x z = true) ->
    exists l', sort lt l = Ok l' /\
      (forall l1 x l2 y l3, l' = l1 ++ x :: l2 ++ y :: l3 -> le x y = true) /\
      (forall x, In x l -> filter (fun y => le x y && le y x) l' = filter (fun y => le x y && le y x) l);
  ls_compares : forall lt l e, 2 <= length l -> NoDup l ->
    (forall x y, In x l -> In y l -> x <> y -> lt x y = Err e) -> sort lt l = Err e }.
