(** C78: generated modules can be imported. *)
From Coq Require Import String Ascii List ZArith NArith Bool Permutation.
From Verif Require Import PyBase PyRe Xml PyVal XsdSimple XsdComplex XsdMeta ExEnv LibClasses Py2Xsd SpecXsd GenOrder SpecOrder PfOrder2 Xsd2Py PyLoad
  SpecGenCode SpecUrl SpecService SpecLoadable PfLoadable4 ExGenCode ExLoadable.
Import ListNotations.
Open Scope nat_scope.
Open Scope string_scope.
Open Scope list_scope.

(** If a document names its types and elements in a usable way, uses defined types
    only, can be ordered and has no type that needs itself, then the module
    generated from it can be imported.  It has a class for every type and for
    every element with a type of its own, and all of these can be called. *)
Theorem C78_import :
  forall sort n rt nss limit s rank O x, list_sort sort -> schema_works nss n limit s rank -> states_schema x s ->
  exists code m, schema_to_py sort n nss [] x = Ok code /\ load rt limit O code = Ok m /\
    Permutation (map fst (ms_names (md_state m))) (simple_names s ++ complex_names s ++ own_names s) /\
    forall c, In c (complex_names s ++ own_names s) -> exists fs, new_instance O (module_env limit (md_state m)) c = Ok fs.
Proof. exact loadable. Qed.
Print Assumptions C78_import.
(** The class of a type that is no extension has what the document says. *)
Theorem C78_classes :
  forall sort n rt nss limit s rank O x, list_sort sort -> schema_works nss n limit s rank -> states_schema x s ->
  exists code m, schema_to_py sort n nss [] x = Ok code /\ load rt limit O code = Ok m /\
  forall p, In p (sc_complexes s) -> cp_base p = None ->
  exists d, module_class m (capital (cp_name p)) d /\ cd_mro d = [capital (cp_name p); "xsd.ComplexType"] /\ cd_kind d = CKPlain /\
    cd_ind d = match co_ind (cp_content p) with Some i => i | None => ISequence end /\
    cd_schema d = Some {| si_tns := Some (sc_tns s); si_efd := sc_efd s |} /\
    Forall2 (mirrors m nss) (co_attrs (cp_content p) ++ co_elems (cp_content p)) (cd_fields d).
Proof. exact loadable_classes. Qed.
Print Assumptions C78_classes.
Example C78_nonvacuous :
  g_read l_doc = Ok l_x /\ list_sort insertion_sort /\ schema_works [Some "xs"] 20 20 l_plan l_rank /\ states_schema l_x l_plan /\
  exists m, g_module l_x = Ok m /\ map fst (ms_names (md_state m)) = ["Size"; "Code"; "ShortCode"; "Item"; "Maker"; "Special"; "Best"; "Box"].
Proof.
  split; [exact l_x_read|]. split; [exact insertion_sorts|]. split; [exact l_works|]. split; [exact l_states|].
  eexists. split; vm_compute; reflexivity.
Qed.

(** The conditions matter: an element named cls makes two parameters of that name; *)
Theorem C78_parameter_refuted :
  g_import (e_schema [e_type "t" [e_sequence [e_element "cls" [("type", "xs:string")]]]]) = Err SyntaxError.
Proof. vm_compute. reflexivity. Qed.
Print Assumptions C78_parameter_refuted.
(** an element of type anyType makes the class that embeds its type fail; *)
Theorem C78_anyType_refuted :
  g_import (e_schema [e_type "t" [e_sequence [e_element "a" [("type", "sns:u")]]]; e_type "u" [e_sequence [e_element "b" [("type", "xs:anyType")]]]])
  = Err (Exn ENotImplementedError "").
Proof. vm_compute. reflexivity. Qed.
Print Assumptions C78_anyType_refuted.
(** types that need each other do not end; *)
Theorem C78_mutual_refuted :
  g_import (e_schema [e_type "t" [e_sequence [e_element "a" [("type", "sns:u"); ("minOccurs", "0")]]];
                      e_type "u" [e_sequence [e_element "b" [("type", "sns:t"); ("minOccurs", "0")]]]]) = Err RecursionError.
Proof. vm_compute. reflexivity. Qed.
Print Assumptions C78_mutual_refuted.
(** a base without prefix that is not in the document, or a cycle of bases, ends
    the generation itself. *)
Theorem C78_bases_refuted :
  g_import (e_schema [e_extension "t" "elsewhere"; e_type "u" [e_sequence []]]) = Err KeyError /\
  g_import (e_schema [e_extension "t" "u"; e_extension "u" "t"; e_extension "v" "u"; e_type "w" [e_sequence []]]) = Err RecursionError.
Proof. split; vm_compute; reflexivity. Qed.
Print Assumptions C78_bases_refuted.
