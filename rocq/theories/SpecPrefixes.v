(** What prefixes mean (C100). *)
From Coq Require Import String Ascii List Bool.
From Verif Require Import PyBase XsdPrefixes Prefixes SpecNames.
Import ListNotations.
Open Scope string_scope.
Open Scope list_scope.

(** The namespaces taken for XML Schema. *)
Definition xml_schema (uri : string) : Prop :=
  uri = "http://www.w3.org/2001/XMLSchema" \/ uri = "http://www.w3.org/2000/10/XMLSchema".
(** The prefix (None: no prefix) stands for the namespace here. *)
Definition stands_for (scope : nsmap) (p : option string) (uri : string) : Prop := In (p, uri) scope.
(** A prefix stands for one namespace at a time. *)
Definition scope_ok (scope : nsmap) : Prop := NoDup (map fst scope).
(** The root and the schemas of a document. *)
Definition scopes (d : prefixed) : list nsmap := pr_root d :: pr_schemas d.
Definition doc_ok (d : prefixed) : Prop := Forall scope_ok (scopes d).
(** What the prefix stands for in the last of the scopes that know it. *)
Definition last_meaning (l : list nsmap) (p : option string) (uri : string) : Prop :=
  exists before m after, l = before ++ m :: after /\ stands_for m p uri /\ forall m' u, In m' after -> ~ stands_for m' p u.
(** No prefix is XML Schema's at one place and another's elsewhere. *)
Definition one_meaning (docs : list prefixed) : Prop :=
  forall d d' m m' p u u', In d docs -> In d' docs -> In m (scopes d) -> In m' (scopes d') ->
  stands_for m p u -> stands_for m' p u' -> xml_schema u -> xml_schema u'.
(** "p:name", or just "name". *)
Definition qualified (p : option string) (name : string) : string :=
  match p with Some p => p ++ ":" ++ name | None => name end.
Definition prefix_ok (p : option string) : Prop := match p with Some p => colon_free p | None => True end.
