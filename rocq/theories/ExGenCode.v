(** XSD documents for the theorems about generated classes. *)
From Coq Require Import String Ascii List ZArith NArith Bool.
From Verif Require Import PyBase PyRe Xml PyVal XsdSimple XsdComplex ExEnv LibClasses Py2Xsd SpecXsd XsdMeta PfOrder2 Xsd2Py PyLoad SpecGenCode.
Import ListNotations.
Open Scope string_scope.
Open Scope list_scope.

(** An interpreter that compiles two patterns properly, and in whose modules
    unknown names and unusual literals are errors. *)
Definition g_re (text : string) : re :=
  if String.eqb text "\w*" then RStar (RSet id_char) else r_plus (RSet (in_range 48 57)).
Definition g_rt : runtime := mkRt g_re (fun _ _ => Err SyntaxError) (fun _ => Err SyntaxError) (fun _ => Err NameError).
(** Reading a document, generating the module, importing it; the prefix xs is
    bound to XML Schema. *)
Definition g_read (doc : node) : res pyval := parse_obj 12 ex_oracle (lib_env 10) (xs "Schema") doc.
Definition g_module (x : pyval) : res module := c <- schema_to_py insertion_sort 20 [Some "xs"] [] x ;; load g_rt 20 ex_oracle c.
Definition g_import (doc : node) : res module := x <- g_read doc ;; g_module x.

(** ** Documents *)
Definition e_schema (kids : list node) : node :=
  xel "schema" [("targetNamespace", "urn:shop"); ("elementFormDefault", "qualified")] kids.
Definition e_element (name : string) (attrs : list (string * string)) : node := xel "element" (("name", name) :: attrs) [].
Definition e_type (name : string) (kids : list node) : node := xel "complexType" [("name", name)] kids.
Definition e_sequence (kids : list node) : node := xel "sequence" [] kids.
Definition e_extension (name base : string) : node :=
  e_type name [xel "complexContent" [] [xel "extension" [("base", base)] [e_sequence []]]].
Definition e_simple (name base : string) (kids : list node) : node :=
  xel "simpleType" [("name", name)] [xel "restriction" [("base", base)] kids].

Definition g_doc : node :=
  e_schema
    [e_simple "size" "xs:string" [facet "enumeration" "S"; facet "enumeration" "M"];
     e_simple "code" "xs:string" [facet "pattern" "\d+"];
     xel "attributeGroup" [("name", "marks")] [xel "attribute" [("name", "mark"); ("type", "xs:string"); ("use", "required")] []];
     xel "group" [("name", "address")] [e_sequence [e_element "street" [("type", "xs:string"); ("minOccurs", "0")]]];
     e_type "item"
       [e_sequence [e_element "class" [("type", "sns:size")];
                    e_element "price" [("type", "xs:decimal"); ("minOccurs", "0"); ("nillable", "true")];
                    e_element "tag" [("type", "xs:string"); ("minOccurs", "1"); ("maxOccurs", "unbounded")];
                    e_element "order" [("type", "sns:order"); ("minOccurs", "0")]];
        xel "attribute" [("name", "id"); ("type", "sns:code"); ("use", "required")] []];
     e_type "order" [xel "choice" [] [e_element "date" [("type", "xs:date")]; e_element "count" [("type", "xs:int"); ("maxOccurs", "3")]]];
     e_type "special"
       [xel "complexContent" []
         [xel "extension" [("base", "sns:item")]
           [e_sequence [e_element "discount" [("type", "xs:float")]]]]];
     e_element "thing" [("type", "sns:item")];
     xel "element" [("name", "box")] [xel "complexType" [] [e_sequence [e_element "content" [("type", "sns:item"); ("maxOccurs", "unbounded")]]]]].
Definition g_x : pyval := Eval vm_compute in match g_read g_doc with Ok x => x | Err _ => VNone end.
Lemma g_x_read : g_read g_doc = Ok g_x.
Proof. vm_compute. reflexivity. Qed.
Lemma g_loaded : exists code m, schema_to_py insertion_sort 20 [Some "xs"] [] g_x = Ok code /\ load g_rt 20 ex_oracle code = Ok m.
Proof.
  assert (H : match schema_to_py insertion_sort 20 [Some "xs"] [] g_x with Ok c => match load g_rt 20 ex_oracle c with Ok _ => true | Err _ => false end | Err _ => false end = true)
    by (vm_compute; reflexivity).
  destruct (schema_to_py insertion_sort 20 [Some "xs"] [] g_x) as [c|] eqn:Ec; [|discriminate]. destruct (load g_rt 20 ex_oracle c) as [m|] eqn:Em; [|discriminate]. eauto.
Qed.

(** Its parts. *)
Definition part (o : pyval) (name : string) : pyval := match o with VObj _ _ fs => match assoc name fs with Some v => v | None => VNone end | _ => VNone end.
Definition items (o : pyval) (name : string) : list pyval := match part o name with VList _ l => l | _ => [] end.
Lemma has_of o n v : match o with VObj _ _ fs => assoc n fs = Some v | _ => False end -> has o n v.
Proof. destruct o; try contradiction. intros H. eexists _, _, _. split; [reflexivity|exact H]. Qed.
Lemma lacks_of o n : part o n = VNone -> lacks o n.
Proof. intros H v (c & xe & fs & -> & E). cbn in H. now rewrite E in H. Qed.
Lemma is_a_of o c : match o with VObj c' _ _ => c' = xs c | _ => False end -> is_a o c.
Proof. destruct o; try contradiction. intros ->. eexists _, _. reflexivity. Qed.
Ltac element := repeat split; try discriminate;
  first [apply has_of; vm_compute; reflexivity | apply lacks_of; vm_compute; reflexivity | apply is_a_of; vm_compute; reflexivity |
         left; apply lacks_of; vm_compute; reflexivity | right; apply has_of; vm_compute; reflexivity | idtac].

Definition g_types : list pyval := items g_x "complexTypes".
Definition g_item : pyval := nth 0 g_types VNone.
Definition g_order : pyval := nth 1 g_types VNone.
Definition g_special : pyval := nth 2 g_types VNone.
Definition g_extension : pyval := part (part g_special "complexContent") "extension".
Definition g_thing : pyval := nth 0 (items g_x "elements") VNone.
Definition g_box : pyval := nth 1 (items g_x "elements") VNone.

Definition item_elements : list particle :=
  [mkPt false "class" "sns:size" None ONone false; mkPt false "price" "xs:decimal" (Some 0%Z) ONone true;
   mkPt false "tag" "xs:string" (Some 1%Z) OUnbounded false; mkPt false "order" "sns:order" (Some 0%Z) ONone false].
Definition item_attributes : list particle := [mkPt true "id" "sns:code" (Some 1%Z) ONone false].

Lemma g_item_elements : Forall2 states_element (items (part g_item "sequence") "elements") item_elements.
Proof. repeat constructor; element. Qed.
Lemma g_item_attributes : Forall2 states_attribute (items g_item "attributes") item_attributes.
Proof. repeat constructor; element. Qed.
Lemma g_item_usable : usable (item_attributes ++ item_elements).
Proof.
  split; [repeat constructor; vm_compute; intuition discriminate|].
  intros p Hp. cbn in Hp. repeat destruct Hp as [<- | Hp]; try destruct Hp; vm_compute; intuition discriminate.
Qed.
Lemma g_item_content : states_content g_item (Some ISequence) (items (part g_item "sequence") "elements") (items g_item "attributes").
Proof.
  split; [split|split].
  - exists (part g_item "sequence"), true. repeat split; element.
  - intros [] H; try congruence; apply lacks_of; vm_compute; reflexivity.
  - exists true. element.
  - exists true. element.
Qed.
Lemma g_special_content : states_content g_extension (Some ISequence) (items (part g_extension "sequence") "elements") [].
Proof.
  split; [split|split].
  - exists (part g_extension "sequence"), true. repeat split; element.
  - intros [] H; try congruence; apply lacks_of; vm_compute; reflexivity.
  - exists true. element.
  - exists true. element.
Qed.
Lemma g_special_elements : Forall2 states_element (items (part g_extension "sequence") "elements") [mkPt false "discount" "xs:float" None ONone false].
Proof. repeat constructor; element. Qed.
Lemma g_box_content : states_content (part g_box "complexType") (Some ISequence) (items (part (part g_box "complexType") "sequence") "elements") [].
Proof.
  split; [split|split].
  - exists (part (part g_box "complexType") "sequence"), true. repeat split; element.
  - intros [] H; try congruence; apply lacks_of; vm_compute; reflexivity.
  - exists true. element.
  - exists true. element.
Qed.
Lemma g_box_elements : Forall2 states_element (items (part (part g_box "complexType") "sequence") "elements") [mkPt false "content" "sns:item" None OUnbounded false].
Proof. repeat constructor; element. Qed.
