(** Vocabulary for the order of the schemas in a module generated from a WSDL
    document. *)
From Coq Require Import String Ascii List ZArith NArith Bool.
From Verif Require Import PyBase PyVal Xsd2Py PyModule SpecGenCode.
Import ListNotations.
Open Scope string_scope.
Open Scope list_scope.

(** The schema objects of a parsed document: those of its types, if it has any. *)
Definition schemas_of (d : pyval) (l : list pyval) : Prop :=
  (has d "types" VNone /\ l = []) \/
  exists t c xe fs k, has d "types" t /\ t = VObj c xe fs /\ has t "schemas" (VList k l).
(** The target namespace of a schema, *)
Definition target (o : pyval) (ns : string) : Prop := has o "targetNamespace" (VStr ns).
(** a namespace it imports, *)
Definition imports_ns (o : pyval) (ns : string) : Prop :=
  exists k l i, has o "imports" (VList k l) /\ In i l /\ has i "namespace" (VStr ns).
(** and whether it imports anything. *)
Definition imports_nothing (o : pyval) : Prop := exists k, has o "imports" (VList k []).
(** The statement for a schema: the variable it is bound to and the target
    namespace written there. *)
Definition statement_for (md5 : string -> string) (p : string * (list gclass * gschema_st)) (o : pyval) : Prop :=
  exists ns, target o ns /\ fst p = ("Schema_" ++ md5 ns)%string /\ gz_tns (snd (snd p)) = ns.
