(** Specification for Threads.v: what the type of an Element is, however many
    threads look at it. *)
From Coq Require Import String List Bool ZArith.
From Verif Require Import PyBase PyVal XsdComplex Threads.
Import ListNotations.
Open Scope nat_scope.
Open Scope string_scope.

(** The instance [i] is what an Element with the type [g] works with: the very
    instance that was given; an instance of the class; for a dotted name, what
    the attribute of the module stands for. *)
Inductive stands_for (attribute : string -> res given) : given -> instance -> Prop :=
| SF_instance i : stands_for attribute (GInstance i) i
| SF_class i : stands_for attribute (GClass (in_class i)) i
| SF_name path g i : attribute path = Ok g -> stands_for attribute g i -> stands_for attribute (GName path) i.

(** An Element that was given [g] and has not been used: its type is a class or
    an instance. *)
Definition unused (g : given) (s : slot) : Prop :=
  sl_passed s = g /\ sl_type s = None /\ forall path, g <> GName path.
(** An Element that was given [g] and has been used, for example by making the
    Schema object its class belongs to. *)
Definition used (attribute : string -> res given) (g : given) (s : slot) : Prop :=
  exists i, sl_type s = Some i /\ stands_for attribute g i.

(** What a thread gets for its work. *)
Definition result_of (attribute : string -> res given) (source : nat -> given) (j : job) (i : instance) : Prop :=
  match j with
  | Uses e => stands_for attribute (source e) i
  | Makes c => in_class i = c
  end.

(** How often [k] is in a schedule. *)
Definition turns (k : nat) (schedule : list nat) : nat := count_occ Nat.eq_dec schedule k.

(** Classes that do not contain themselves: every class is deeper than the classes
    its fields have. *)
Definition layered (fields : string -> list nat) (source : nat -> given) (depth : string -> nat) : Prop :=
  forall c e d, In e (fields c) -> source e = GClass d -> depth d < depth c.

(** The sum of [f k] over the threads [k < n]. *)
Fixpoint total (n : nat) (f : nat -> nat) : nat :=
  match n with O => 0 | S n' => f n' + total n' f end.

(** An Element that was given a dotted name [g] and has not been used: the module
    has the attribute, and it is a class or an instance. *)
Definition unused_name (attribute : string -> res given) (g : given) (s : slot) : Prop :=
  sl_passed s = g /\ sl_type s = None /\
  exists module name g', g = GName (module ++ "." ++ name) /\ attribute (module ++ "." ++ name)%string = Ok g' /\ forall path, g' <> GName path.
