(** Which prefixes stand for the namespace of XML Schema
    (/repo/soapfish/utils.py:176-180). *)
From Coq Require Import String Ascii List Bool.
From Verif Require Import PyBase PyVal LibClasses Py2Xsd.
Import ListNotations.
Open Scope string_scope.
Open Scope list_scope.

(** namespaces.py:5 *)
Definition ns_xsd2000 : string := "http://www.w3.org/2000/10/XMLSchema".

(** [Element.nsmap]: a dictionary from prefixes to namespaces; the key None is
    the default namespace. *)
Definition nsmap := list (option string * string).
Definition prefix_eqb (a b : option string) : bool :=
  match a, b with Some x, Some y => String.eqb x y | None, None => true | _, _ => false end.
(** [d[k] = v] keeps the place of a key that is there. *)
Fixpoint nsmap_set (k : option string) (v : string) (m : nsmap) : nsmap :=
  match m with
  | [] => [(k, v)]
  | (k', v') :: m => if prefix_eqb k k' then (k', v) :: m else (k', v') :: nsmap_set k v m
  end.
Definition nsmap_update (m other : nsmap) : nsmap := fold_left (fun m p => nsmap_set (fst p) (snd p) m) other m.

(** find_xsd_namespaces, utils.py:176-180.  [root] is the nsmap of the root,
    [schemas] those of the elements called schema in document order.  The result
    is a set. *)
Definition find_xsd_namespaces (root : nsmap) (schemas : list nsmap) : list (option string) :=
  map fst (filter (fun p => str_in (snd p) [ns_xsd; ns_xsd2000]) (fold_left nsmap_update schemas root)).

(** The prefixes of a generated XSD document: py2xsd.py:205-213 passes them to
    its root, which is the only element called schema. *)
Definition document_prefixes (doc : xdocument) : nsmap := map (fun p => (Some (fst p), snd p)) (xd_prefixes doc).
Definition xsd_prefixes (doc : xdocument) : list (option string) :=
  find_xsd_namespaces (document_prefixes doc) [document_prefixes doc].
