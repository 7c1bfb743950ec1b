(** C57: the order of the schemas in a module generated from a WSDL document. *)
From Coq Require Import String Ascii List ZArith NArith Bool Permutation.
From Verif Require Import PyBase Xml PyVal XsdSimple XsdComplex Soap ExEnv LibClasses GenOrder PfOrder2 Xsd2Py PyModule Wsdl2Py SpecGenCode ExService SpecOrder2 PfOrder3.
Import ListNotations.
Open Scope nat_scope.
Open Scope string_scope.
Open Scope list_scope.

(** The module has a statement for every schema of the document; if the schemas
    imported import nothing themselves, none comes before one it imports. *)
Theorem C57_module_partial :
  forall sort n fuel O L md5 checked server nss root d l code,
  parse_obj fuel O L (wn (version_from_xml root) "Definitions") root = Ok d -> schemas_of d l ->
  code_for_wsdl sort n fuel O L md5 checked server nss root = Ok code ->
  exists order, Permutation order l /\ Forall2 (statement_for md5) (wc_schemas code) order /\
    ((exists names, Forall2 target l names /\ NoDup names) ->
     (forall o o' ns, In o l -> In o' l -> imports_ns o ns -> target o' ns -> imports_nothing o') ->
     forall before o after o' ns, order = before ++ o :: after -> In o' after -> target o' ns -> ~ imports_ns o ns).
Proof. exact code_order. Qed.
Print Assumptions C57_module_partial.

Definition o_schema (tns : string) (imports : list string) : node :=
  Elem (clark ns_xsd "schema") [("targetNamespace", tns)] (map (fun i => Elem (clark ns_xsd "import") [("namespace", i)] []) imports).
Definition o_root : node :=
  Elem (clark ns_wsdl "definitions") [("targetNamespace", "urn:w")] [Elem (clark ns_wsdl "types") [] [o_schema "urn:a" ["urn:b"]; o_schema "urn:b" []]].
Example C57_module_nonvacuous :
  exists d l code, parse_obj 14 ex_oracle (lib_env 10) (wn (version_from_xml o_root) "Definitions") o_root = Ok d /\ schemas_of d l /\
    code_for_wsdl insertion_sort 20 14 ex_oracle (lib_env 10) (fun s => s) (fun _ => true) false [Some "xs"] o_root = Ok code /\
    map fst (wc_schemas code) = ["Schema_urn:b"; "Schema_urn:a"] /\
    (exists names, Forall2 target l names /\ NoDup names) /\
    (forall o o' ns, In o l -> In o' l -> imports_ns o ns -> target o' ns -> imports_nothing o').
Proof.
  eexists _, _, _. split; [vm_compute; reflexivity|]. split; [right; eexists _, _, _, _, _; split; [repeat eexists|]; split; [reflexivity|]; repeat eexists|].
  split; [vm_compute; reflexivity|]. split; [reflexivity|]. split.
  - exists ["urn:a"; "urn:b"]. split; [repeat constructor; repeat eexists|]. repeat constructor; cbn; intuition discriminate.
  - intros o o' ns [<- | [<- | []]] [<- | [<- | []]] I T; try (eexists; repeat eexists; fail);
      destruct T as (c & xe & fs & [= <- <- <-] & [= <-]); destruct I as (k & li & i & (c & xe & fs & [= <- <- <-] & [= <- <-]) & Hi & Hn).
    + destruct Hi as [<- | []]. destruct Hn as (c & xe & fs & [= <- <- <-] & [=]).
    + destruct Hi.
Qed.
