(** C71, C72: classes generated from XSD. *)
From Coq Require Import String Ascii List ZArith NArith Bool.
From Verif Require Import PyBase PyRe Xml PyVal XsdSimple XsdComplex XsdMeta ExEnv LibClasses Py2Xsd SpecSimple SpecXsd Xsd2Py PyLoad
  SpecNames SpecGenCode GenOrder SpecOrder PfOrder2 PfGenCode8 PfGenCode9 ExGenCode.
Import ListNotations.
Open Scope string_scope.
Open Scope list_scope.

(** ** C71 *)

(** In every module that can be imported, a type whose elements and attributes
    name their types has a class with exactly these, in order. *)
Theorem C71_class_partial :
  forall sort n rt limit O nss known x code m bl cts ct name i els attrs eps aps, list_sort sort ->
  Forall (fun n => identifier n = true) known -> schema_to_py sort n nss known x = Ok code -> load rt limit O code = Ok m ->
  has x "complexTypes" (VList bl cts) -> In ct cts -> has ct "name" (VStr name) ->
  Forall2 states_element els eps -> Forall2 states_attribute attrs aps -> usable (aps ++ eps) ->
  lacks ct "complexContent" -> states_content ct i els attrs ->
  exists d, module_class m (capital name) d /\ cd_mro d = [capital name; "xsd.ComplexType"] /\ cd_kind d = CKPlain /\
    cd_ind d = match i with Some i => i | None => ISequence end /\ Forall2 (mirrors m nss) (aps ++ eps) (cd_fields d).
Proof. exact plain_class_printed. Qed.
Print Assumptions C71_class_partial.
Example C71_class_nonvacuous :
  g_read g_doc = Ok g_x /\
  exists code m, schema_to_py insertion_sort 20 [Some "xs"] [] g_x = Ok code /\ load g_rt 20 ex_oracle code = Ok m /\
  has g_x "complexTypes" (VList true g_types) /\ In g_item g_types /\ has g_item "name" (VStr "item") /\
  Forall2 states_element (items (part g_item "sequence") "elements") item_elements /\
  Forall2 states_attribute (items g_item "attributes") item_attributes /\ usable (item_attributes ++ item_elements) /\
  lacks g_item "complexContent" /\ states_content g_item (Some ISequence) (items (part g_item "sequence") "elements") (items g_item "attributes").
Proof.
  split; [exact g_x_read|]. destruct g_loaded as (code & m & C & L). exists code, m. split; [exact C|]. split; [exact L|].
  split; [apply has_of; vm_compute; reflexivity|]. split; [left; reflexivity|]. split; [apply has_of; vm_compute; reflexivity|].
  split; [exact g_item_elements|]. split; [exact g_item_attributes|]. split; [exact g_item_usable|].
  split; [apply lacks_of; vm_compute; reflexivity|exact g_item_content].
Qed.

(** An extension has the elements and attributes of its base, and its own. *)
Theorem C71_extension_partial :
  forall sort n rt limit O nss known x code m bl cts ct name i els attrs eps aps, list_sort sort ->
  Forall (fun n => identifier n = true) known -> schema_to_py sort n nss known x = Ok code -> load rt limit O code = Ok m ->
  has x "complexTypes" (VList bl cts) -> In ct cts -> has ct "name" (VStr name) ->
  Forall2 states_element els eps -> Forall2 states_attribute attrs aps -> usable (aps ++ eps) ->
  forall cc ex q p local, has ct "complexContent" cc -> is_a cc "ComplexContent" -> lacks cc "restriction" ->
  has cc "extension" ex -> is_a ex "Extension" -> has ex "base" (VStr q) -> qualified_name q p local -> ~ In p nss ->
  states_content ex i els attrs ->
  (forall db f, module_class m (capital local) db -> In f (cd_fields db) -> ~ In (f_name f) ["create"; "INDICATOR"; "INHERITANCE"]) ->
  exists d db own, module_class m (capital name) d /\ module_class m (capital local) db /\
    cd_mro d = capital name :: cd_mro db /\ cd_kind d = cd_kind db /\
    cd_ind d = match i with Some i => i | None => cd_ind db end /\
    cd_fields d = filter (fun f => negb (str_in (f_name f) (map (fun p => python_name (pt_name p)) (aps ++ eps)))) (cd_fields db) ++ own /\
    Forall2 (mirrors m nss) (aps ++ eps) own.
Proof. exact derived_class_printed. Qed.
Print Assumptions C71_extension_partial.
Example C71_extension_nonvacuous :
  In g_special g_types /\ has g_special "name" (VStr "special") /\
  Forall2 states_element (items (part g_extension "sequence") "elements") [mkPt false "discount" "xs:float" None ONone false] /\
  has g_special "complexContent" (part g_special "complexContent") /\ is_a (part g_special "complexContent") "ComplexContent" /\
  lacks (part g_special "complexContent") "restriction" /\ has (part g_special "complexContent") "extension" g_extension /\
  is_a g_extension "Extension" /\ has g_extension "base" (VStr "sns:item") /\ qualified_name "sns:item" (Some "sns") "item" /\
  ~ In (Some "sns") [Some "xs"] /\ states_content g_extension (Some ISequence) (items (part g_extension "sequence") "elements") [] /\
  exists m, g_import g_doc = Ok m /\
    (exists db, module_class m "Item" db /\ map f_name (cd_fields db) = ["id"; "_class"; "price"; "tag"; "order"]) /\
    exists d, module_class m "Special" d /\ map f_name (cd_fields d) = ["id"; "_class"; "price"; "tag"; "order"; "discount"].
Proof.
  split; [right; right; left; reflexivity|]. split; [apply has_of; vm_compute; reflexivity|]. split; [exact g_special_elements|].
  split; [apply has_of; vm_compute; reflexivity|]. split; [apply is_a_of; vm_compute; reflexivity|]. split; [apply lacks_of; vm_compute; reflexivity|].
  split; [apply has_of; vm_compute; reflexivity|]. split; [apply is_a_of; vm_compute; reflexivity|]. split; [apply has_of; vm_compute; reflexivity|].
  split; [split; [|split; [|reflexivity]]; vm_compute; intuition discriminate|]. split; [intros [H | []]; discriminate|]. split; [exact g_special_content|].
  eexists. split; [vm_compute; reflexivity|]. split; eexists; (split; [vm_compute; reflexivity|reflexivity]).
Qed.

(** A top-level element with a type is an element of the schema, of that type. *)
Theorem C71_element_partial :
  forall sort k rt limit O nss known x code m bl els names e n, list_sort sort ->
  Forall (fun n => identifier n = true) known -> schema_to_py sort k nss known x = Ok code -> load rt limit O code = Ok m ->
  has x "elements" (VList bl els) -> Forall2 (fun e n => has e "name" (VStr n)) els names -> NoDup names -> Forall plain_text names ->
  In e els -> has e "name" (VStr n) ->
  forall q, is_a e "Element" -> lacks e "ref" -> has e "type" (VStr q) -> q <> "" ->
  exists t sg, assoc n (md_elements m) = Some (t, sg) /\ denotes m nss q t /\ keeps_group e sg.
Proof. exact typed_element_printed. Qed.
Print Assumptions C71_element_partial.
(** One with a type of its own gets a class of its own. *)
Theorem C71_anonymous_partial :
  forall sort k rt limit O nss known x code m bl els names e n, list_sort sort ->
  Forall (fun n => identifier n = true) known -> schema_to_py sort k nss known x = Ok code -> load rt limit O code = Ok m ->
  has x "elements" (VList bl els) -> Forall2 (fun e n => has e "name" (VStr n)) els names -> NoDup names -> Forall plain_text names ->
  In e els -> has e "name" (VStr n) ->
  forall ct i els0 attrs eps aps,
  lacks e "type" -> has e "complexType" ct -> is_a ct "XSDComplexType" -> lacks ct "complexContent" ->
  states_content ct i els0 attrs -> Forall2 states_element els0 eps -> Forall2 states_attribute attrs aps ->
  usable (aps ++ eps) -> (forall p, In p (aps ++ eps) -> exists t, denotes m nss (pt_type p) t) ->
  (exists sg, assoc n (md_elements m) = Some (TComplex (capital n), sg) /\ keeps_group e sg) /\
  exists d, module_class m (capital n) d /\ cd_mro d = [capital n; "xsd.ComplexType"] /\ cd_kind d = CKPlain /\
    cd_ind d = match i with Some i => i | None => ISequence end /\ Forall2 (mirrors m nss) (aps ++ eps) (cd_fields d).
Proof. exact anonymous_class_printed. Qed.
Print Assumptions C71_anonymous_partial.
Example C71_elements_nonvacuous :
  has g_x "elements" (VList true [g_thing; g_box]) /\
  Forall2 (fun e n => has e "name" (VStr n)) [g_thing; g_box] ["thing"; "box"] /\ NoDup ["thing"; "box"] /\ Forall plain_text ["thing"; "box"] /\
  is_a g_thing "Element" /\ lacks g_thing "ref" /\ has g_thing "type" (VStr "sns:item") /\
  lacks g_box "type" /\ has g_box "complexType" (part g_box "complexType") /\ is_a (part g_box "complexType") "XSDComplexType" /\
  lacks (part g_box "complexType") "complexContent" /\
  states_content (part g_box "complexType") (Some ISequence) (items (part (part g_box "complexType") "sequence") "elements") [] /\
  Forall2 states_element (items (part (part g_box "complexType") "sequence") "elements") [mkPt false "content" "sns:item" None OUnbounded false] /\
  exists m, g_import g_doc = Ok m /\ denotes m [Some "xs"] "sns:item" (TComplex "Item").
Proof.
  split; [apply has_of; vm_compute; reflexivity|].
  split; [constructor; [apply has_of; vm_compute; reflexivity|constructor; [apply has_of; vm_compute; reflexivity|constructor]]|].
  split; [repeat constructor; cbn; intuition discriminate|].
  split; [repeat constructor; vm_compute; intuition discriminate|].
  split; [apply is_a_of; vm_compute; reflexivity|]. split; [apply lacks_of; vm_compute; reflexivity|]. split; [apply has_of; vm_compute; reflexivity|].
  split; [apply lacks_of; vm_compute; reflexivity|]. split; [apply has_of; vm_compute; reflexivity|]. split; [apply is_a_of; vm_compute; reflexivity|].
  split; [apply lacks_of; vm_compute; reflexivity|]. split; [exact g_box_content|]. split; [exact g_box_elements|].
  eexists. split; [vm_compute; reflexivity|]. exists (Some "sns"), "item".
  split; [split; [|split; [|reflexivity]]; vm_compute; intuition discriminate|]. split; [discriminate|]. right. split; [intros [H | []]; discriminate|].
  vm_compute. reflexivity.
Qed.

(** The classes are in the target namespace of the schema. *)
Theorem C71_namespace :
  forall sort n rt limit O nss known x code m bl cts ct name d tns efd, list_sort sort -> schema_to_py sort n nss known x = Ok code -> load rt limit O code = Ok m ->
  has x "complexTypes" (VList bl cts) -> In ct cts -> has ct "name" (VStr name) -> module_class m (capital name) d ->
  has x "targetNamespace" (VStr tns) -> has x "elementFormDefault" (VStr efd) -> plain_text tns -> plain_text efd ->
  cd_schema d = Some {| si_tns := Some tns; si_efd := efd |}.
Proof. exact class_namespace_printed. Qed.
Print Assumptions C71_namespace.
Example C71_namespace_nonvacuous :
  has g_x "targetNamespace" (VStr "urn:shop") /\ has g_x "elementFormDefault" (VStr "qualified") /\ plain_text "urn:shop" /\ plain_text "qualified".
Proof. split; [apply has_of; vm_compute; reflexivity|]. split; [apply has_of; vm_compute; reflexivity|]. split; vm_compute; intuition discriminate. Qed.

(** Attribute groups have their attributes. *)
Theorem C71_attributeGroup_partial :
  forall sort n rt limit O nss known x code m, list_sort sort ->
  Forall (fun n => identifier n = true) known -> schema_to_py sort n nss known x = Ok code -> load rt limit O code = Ok m ->
  forall bl ags g name b attrs aps, has x "attributeGroups" (VList bl ags) -> In g ags -> has g "name" (VStr name) ->
  has g "attributes" (VList b attrs) -> Forall2 states_attribute attrs aps -> usable aps ->
  exists d, module_class m (capital name) d /\ cd_mro d = [capital name; "xsd.AttributeGroup"; "xsd.Group"; "xsd.ComplexType"] /\ cd_kind d = CKGroup /\
    Forall2 (mirrors m nss) aps (cd_fields d).
Proof. exact attrgroup_class_made_printed. Qed.
Print Assumptions C71_attributeGroup_partial.
(** Groups have their elements, but every element must occur once: minOccurs,
    maxOccurs and nillable are lost. *)
Theorem C71_group_partial :
  forall sort n rt limit O nss known x code m, list_sort sort ->
  Forall (fun n => identifier n = true) known -> schema_to_py sort n nss known x = Ok code -> load rt limit O code = Ok m ->
  forall bl gs g name s b els eps, has x "groups" (VList bl gs) -> In g gs -> has g "name" (VStr name) ->
  has g "sequence" s -> is_a s "Sequence" -> has s "elements" (VList b els) -> Forall2 states_element els eps -> usable eps ->
  exists d, module_class m (capital name) d /\ cd_mro d = [capital name; "xsd.Group"; "xsd.ComplexType"] /\ cd_kind d = CKGroup /\
    Forall2 (mirrors m nss) (map erased eps) (cd_fields d).
Proof. exact group_class_made_printed. Qed.
Print Assumptions C71_group_partial.
Example C71_groups_nonvacuous :
  exists g ag e a, has g_x "groups" (VList true [g]) /\ has g "name" (VStr "address") /\
  has (part g "sequence") "elements" (VList true [e]) /\ states_element e (mkPt false "street" "xs:string" (Some 0%Z) ONone false) /\
  has g_x "attributeGroups" (VList true [ag]) /\ has ag "name" (VStr "marks") /\ has ag "attributes" (VList true [a]) /\
  states_attribute a (mkPt true "mark" "xs:string" (Some 1%Z) ONone false).
Proof.
  exists (nth 0 (items g_x "groups") VNone), (nth 0 (items g_x "attributeGroups") VNone),
    (nth 0 (items (part (nth 0 (items g_x "groups") VNone) "sequence") "elements") VNone),
    (nth 0 (items (nth 0 (items g_x "attributeGroups") VNone) "attributes") VNone).
  repeat (split; [first [apply has_of; vm_compute; reflexivity | solve [repeat constructor; element]]|]). repeat constructor; element.
Qed.

(** The built-in types the library has are what the XSD says. *)
Theorem C71_builtins :
  forall s n, bare s -> builtin s = Some n -> library_provides (capital n) (TSimple s).
Proof. exact builtins. Qed.
Print Assumptions C71_builtins.
Example C71_builtins_nonvacuous :
  bare (SInteger CUnsignedShort no_dfacets) /\ builtin (SInteger CUnsignedShort no_dfacets) = Some "unsignedShort".
Proof. split; reflexivity. Qed.

(** The property is false in general.  A type that has an element of its own
    type, as in a tree, makes the import fail, however deep the stack. *)
Theorem C71_recursive_refuted :
  forall sort n rt limit O nss known x code m bl cts ct name i els attrs eps aps p pr, list_sort sort -> Forall (fun n => identifier n = true) known ->
  schema_to_py sort n nss known x = Ok code ->
  has x "complexTypes" (VList bl cts) -> In ct cts -> has ct "name" (VStr name) ->
  Forall2 states_element els eps -> Forall2 states_attribute attrs aps -> usable (aps ++ eps) ->
  lacks ct "complexContent" -> states_content ct i els attrs ->
  In p eps -> many (pt_max p) = false -> qualified_name (pt_type p) pr name -> ~ In pr nss ->
  load rt limit O code <> Ok m.
Proof. exact recursive_type_printed. Qed.
Print Assumptions C71_recursive_refuted.
Example C71_recursive_nonvacuous :
  g_import (e_schema [e_type "node" [e_sequence [e_element "next" [("type", "sns:node"); ("minOccurs", "0")]]]]) = Err RecursionError.
Proof. vm_compute. reflexivity. Qed.

(** The module cannot be imported either if a name has a hyphen, if a type comes
    before its base and that has a base too, if a type is one of the built-in
    types the library lacks, if a simple type is a union, or if an element
    refers to another one. *)
Theorem C71_import_refuted :
  g_import (e_schema [e_type "t" [e_sequence [e_element "first-name" [("type", "xs:string")]]]]) = Err SyntaxError /\
  g_import (e_schema [e_extension "top" "sns:mid"; e_extension "mid" "sns:base"; e_type "base" [e_sequence []]]) = Err TypeError /\
  g_import (e_schema [e_type "t" [e_sequence [e_element "a" [("type", "xs:token")]]]]) = Err AttributeError /\
  g_import (e_schema [xel "simpleType" [("name", "u")] [xel "union" [("memberTypes", "xs:int xs:string")] []]]) = Err NameError /\
  g_import (e_schema [e_element "a" [("type", "xs:int")]; e_type "t" [e_sequence [xel "element" [("ref", "sns:a")] []]]]) = Err AttributeError.
Proof. repeat split; vm_compute; reflexivity. Qed.
Print Assumptions C71_import_refuted.

(** The class of the only type of a document. *)
Definition class_fields_are (doc : node) (name : string) (fs : list (string * fkind * option Z * occurs * bool)) : Prop :=
  exists m d, g_import doc = Ok m /\ module_class m name d /\
    map (fun f => (f_name f, f_kind f, f_min f, f_max f, f_nillable f)) (cd_fields d) = fs.
(** An element with a simple type of its own loses its occurrence. *)
Theorem C71_inline_refuted :
  class_fields_are
    (e_schema [e_type "t" [e_sequence [xel "element" [("name", "a"); ("minOccurs", "0"); ("maxOccurs", "unbounded"); ("nillable", "true")]
                                         [xel "simpleType" [] [xel "restriction" [("base", "xs:string")] []]]]]])
    "T" [("a", KElement, Some 1%Z, ONone, false)].
Proof. eexists _, _. split; [vm_compute; reflexivity|]. split; vm_compute; reflexivity. Qed.
Print Assumptions C71_inline_refuted.
(** Elements with a complex type of their own, nested groups and simple content vanish. *)
Theorem C71_nested_refuted :
  class_fields_are
    (e_schema [e_type "t" [e_sequence [xel "element" [("name", "a")] [xel "complexType" [] [e_sequence [e_element "b" [("type", "xs:int")]]]]]]])
    "T" [] /\
  class_fields_are
    (e_schema [e_type "t" [e_sequence [xel "choice" [] [e_element "a" [("type", "xs:int")]; e_element "b" [("type", "xs:int")]]]]])
    "T" [] /\
  class_fields_are
    (e_schema [e_type "t" [xel "simpleContent" [] [xel "extension" [("base", "xs:int")] [xel "attribute" [("name", "a"); ("type", "xs:int")] []]]]])
    "T" [].
Proof. repeat split; (eexists _, _; split; [vm_compute; reflexivity|]; split; vm_compute; reflexivity). Qed.
Print Assumptions C71_nested_refuted.
(** An attribute and an element of the same name are one field; an element named
    create is none. *)
Theorem C71_names_refuted :
  class_fields_are
    (e_schema [e_type "t" [e_sequence [e_element "a" [("type", "xs:int")]]; xel "attribute" [("name", "a"); ("type", "xs:string")] []]])
    "T" [("a", KElement, Some 1%Z, ONone, false)] /\
  class_fields_are
    (e_schema [e_type "t" [e_sequence [e_element "create" [("type", "xs:int")]; e_element "b" [("type", "xs:int")]]]])
    "T" [("b", KElement, Some 1%Z, ONone, false)].
Proof. repeat split; (eexists _, _; split; [vm_compute; reflexivity|]; split; vm_compute; reflexivity). Qed.
Print Assumptions C71_names_refuted.
(** A list that must not be empty, by XSD's default of 1 for minOccurs, may be. *)
Theorem C71_default_refuted :
  class_fields_are (e_schema [e_type "t" [e_sequence [e_element "a" [("type", "xs:int"); ("maxOccurs", "5")]]]])
    "T" [("a", KList, None, OInt 5, false)].
Proof. eexists _, _. split; [vm_compute; reflexivity|]. split; vm_compute; reflexivity. Qed.
Print Assumptions C71_default_refuted.
(** A restriction of a type keeps the elements it leaves out; a prohibited
    attribute is optional. *)
Theorem C71_restriction_refuted :
  class_fields_are
    (e_schema [e_type "b" [e_sequence [e_element "p" [("type", "xs:int")]; e_element "q" [("type", "xs:int"); ("minOccurs", "0")]]];
               e_type "t" [xel "complexContent" [] [xel "restriction" [("base", "sns:b")] [e_sequence [e_element "p" [("type", "xs:int")]]]]]])
    "T" [("q", KElement, Some 0%Z, ONone, false); ("p", KElement, Some 1%Z, ONone, false)] /\
  class_fields_are
    (e_schema [e_type "t" [xel "attribute" [("name", "a"); ("type", "xs:string"); ("use", "prohibited")] []]])
    "T" [("a", KAttribute, Some 0%Z, ONone, false)].
Proof. repeat split; (eexists _, _; split; [vm_compute; reflexivity|]; split; vm_compute; reflexivity). Qed.
Print Assumptions C71_restriction_refuted.

(** ** C72 *)

(** A restriction of a string type accepts what enumeration and pattern allow;
    other facets do not count. *)
Theorem C72_strings_partial :
  forall sort n rt limit O nss known x code m bl sts st name r q p local c b es enums pat, list_sort sort -> Forall (fun n => identifier n = true) known ->
  schema_to_py sort n nss known x = Ok code -> load rt limit O code = Ok m ->
  has x "simpleTypes" (VList bl sts) -> In st sts -> has st "name" (VStr name) -> has st "restriction" r -> is_a r "Restriction" ->
  has r "base" (VStr q) -> qualified_name q p local ->
  In p nss -> lib_class (capital local) = Some (MSimple (SString c no_sfacets)) ->
  has r "enumerations" (VList b es) -> Forall2 (fun e s => has e "value" (VStr s)) es enums -> Forall plain_text enums ->
  states_pattern r pat -> (forall s, pat = Some s -> s <> "" /\ plain_pattern s /\ no_top_alt (rt_re rt s) = true) ->
  exists t, provides m (capital name) (TSimple t) /\
    forall s, st_accept O t (VStr s) = Ok (VStr s) <-> (enums = [] \/ In s enums) /\ (forall p, pat = Some p -> pattern_sat (rt_re rt p) s).
Proof. exact string_restriction_printed. Qed.
Print Assumptions C72_strings_partial.
Definition g_size : pyval := nth 0 (items g_x "simpleTypes") VNone.
Definition g_code : pyval := nth 1 (items g_x "simpleTypes") VNone.
Example C72_strings_nonvacuous :
  has g_x "simpleTypes" (VList true [g_size; g_code]) /\ has g_size "name" (VStr "size") /\ has g_code "name" (VStr "code") /\
  has g_code "restriction" (part g_code "restriction") /\ is_a (part g_code "restriction") "Restriction" /\
  has (part g_code "restriction") "base" (VStr "xs:string") /\ qualified_name "xs:string" (Some "xs") "string" /\
  lib_class (capital "string") = Some (MSimple (SString "String" no_sfacets)) /\
  states_pattern (part g_code "restriction") (Some "\d+") /\ plain_pattern "\d+" /\ no_top_alt (rt_re g_rt "\d+") = true /\
  Forall2 (fun e s => has e "value" (VStr s)) (items (part g_size "restriction") "enumerations") ["S"; "M"] /\ Forall plain_text ["S"; "M"].
Proof.
  do 4 (split; [apply has_of; vm_compute; reflexivity|]). split; [apply is_a_of; vm_compute; reflexivity|].
  split; [apply has_of; vm_compute; reflexivity|]. split; [split; [|split; [|reflexivity]]; vm_compute; intuition discriminate|]. split; [reflexivity|].
  split. { exists (part (part g_code "restriction") "pattern"). split; [apply has_of; vm_compute; reflexivity|]. split; [apply is_a_of; vm_compute; reflexivity|]. apply has_of; vm_compute; reflexivity. }
  split; [vm_compute; intuition discriminate|]. split; [reflexivity|].
  split; [constructor; [apply has_of; vm_compute; reflexivity|constructor; [apply has_of; vm_compute; reflexivity|constructor]]|].
  repeat constructor; vm_compute; intuition discriminate.
Qed.

(** So lengths are not enforced, *)
Theorem C72_length_refuted :
  exists m t, g_import (e_schema [e_simple "code" "xs:string" [facet "maxLength" "2"]]) = Ok m /\ provides m "Code" (TSimple t) /\
    st_accept ex_oracle t (VStr "abc") = Ok (VStr "abc").
Proof. eexists _, _. split; [vm_compute; reflexivity|]. split; [vm_compute; reflexivity|]. vm_compute. reflexivity. Qed.
Print Assumptions C72_length_refuted.
(** and of two patterns, one inherited, only the last is. *)
Theorem C72_inherited_pattern_refuted :
  exists m t, g_import (e_schema [e_simple "digits" "xs:string" [facet "pattern" "\d+"]; e_simple "word" "sns:digits" [facet "pattern" "\w*"]]) = Ok m /\
    provides m "Word" (TSimple t) /\ st_accept ex_oracle t (VStr "abc") = Ok (VStr "abc").
Proof. eexists _, _. split; [vm_compute; reflexivity|]. split; [vm_compute; reflexivity|]. vm_compute. reflexivity. Qed.
Print Assumptions C72_inherited_pattern_refuted.
(** A restriction of a number accepts all its base accepts, whatever the facets. *)
Theorem C72_numbers_refuted :
  forall sort n rt limit O nss known x code m bl sts st name r q p local t, list_sort sort -> Forall (fun n => identifier n = true) known ->
  schema_to_py sort n nss known x = Ok code -> load rt limit O code = Ok m ->
  has x "simpleTypes" (VList bl sts) -> In st sts -> has st "name" (VStr name) -> has st "restriction" r -> is_a r "Restriction" ->
  has r "base" (VStr q) -> qualified_name q p local ->
  In p nss -> lib_class (capital local) = Some (MSimple t) -> numeric t = true ->
  exists t', provides m (capital name) (TSimple t') /\ forall v, st_accept O t' v = st_accept O t v.
Proof. exact number_restriction_printed. Qed.
Print Assumptions C72_numbers_refuted.
Example C72_numbers_nonvacuous :
  exists m t, g_import (e_schema [e_simple "percent" "xs:integer" [facet "minInclusive" "0"; facet "maxInclusive" "100"]]) = Ok m /\
    provides m "Percent" (TSimple t) /\ st_accept ex_oracle t (VInt (-7)) = Ok (VInt (-7)).
Proof. eexists _, _. split; [vm_compute; reflexivity|]. split; [vm_compute; reflexivity|]. vm_compute. reflexivity. Qed.
