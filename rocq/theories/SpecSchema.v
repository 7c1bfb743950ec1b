(** Import graphs: reachability, depth-first order. *)
From Coq Require Import String Ascii List ZArith NArith Bool.
From Verif Require Import PyBase Xml PyVal XsdSimple XsdComplex XsdSchema.
Import ListNotations.

(** [t] is imported or included by [s]. *)
Definition imports_of (G : sgraph) (s t : nat) : Prop := In t (s_imports (G s)) \/ In t (s_includes (G s)).

Inductive reaches (G : sgraph) : nat -> nat -> Prop :=
| re_here s : reaches G s s
| re_step s t u : imports_of G s t -> reaches G t u -> reaches G s u.

Definition declares (G : sgraph) (s : nat) (name : string) : Prop :=
  exists e, In (name, e) (s_elements (G s)).

(** [l] lists the schemas reachable from [s] depth first: [s] itself, then what
    is below its imports in order, then what is below its includes. *)
Inductive depth_first (G : sgraph) : nat -> list nat -> Prop :=
| df_node s ls : Forall2 (depth_first G) (s_imports (G s) ++ s_includes (G s)) ls ->
    depth_first G s (s :: concat ls).

(** The declaration of [name] in the first schema of [l] that has one. *)
Fixpoint first_declaration (G : sgraph) (name : string) (l : list nat) : option selement :=
  match l with
  | [] => None
  | s :: t => match assoc name (s_elements (G s)) with
              | Some e => Some e
              | None => first_declaration G name t
              end
  end.

(** An endless chain of imports starting at [s]. *)
Definition endless (G : sgraph) (s : nat) : Prop :=
  exists p : nat -> nat, p 0 = s /\ forall i, imports_of G (p i) (p (S i)).

(** Reachable from one of [roots] by at least one import. *)
Definition below (G : sgraph) (roots : list nat) (t : nat) : Prop :=
  exists s u, In s roots /\ imports_of G s u /\ reaches G u t.
