(** The set xsd_namespaces of the generators when WSDL documents import others:
    generate_code_from_wsdl and merge_imports (/repo/soapfish/wsdl2py.py:36-55,
    81-88) update the one set with the prefixes of every document they open.  For
    find_xsd_namespaces see XsdPrefixes.v, for get_type GenNames.v. *)
From Coq Require Import String Ascii List Bool.
From Verif Require Import PyBase GenNames XsdPrefixes.
Import ListNotations.

(** The nsmap of the root of a document, and those of its elements called schema in
    document order. *)
Record prefixed := mkPre { pr_root : nsmap; pr_schemas : list nsmap }.

(** xsd_namespaces after [xsd_namespaces.update(find_xsd_namespaces(xml))] for all
    documents; the set is a list. *)
Definition all_xsd_namespaces (docs : list prefixed) : list (option string) :=
  flat_map (fun d => find_xsd_namespaces (pr_root d) (pr_schemas d)) docs.

(** How a type name is printed in the module, utils.py:126-143. *)
Definition printed_type (docs : list prefixed) (known : option (list string)) (qname : string) : res string :=
  get_type (all_xsd_namespaces docs) known qname.
