(** C71: classes generated from types that refer to attribute groups. *)
From Coq Require Import String Ascii List ZArith NArith Bool.
From Verif Require Import PyBase PyRe Xml PyVal XsdSimple XsdComplex XsdMeta ExEnv LibClasses Py2Xsd SpecXsd Xsd2Py PyLoad
  SpecNames SpecGenCode SpecGenCode2 GenOrder SpecOrder PfOrder2 PfGenCode10 ExGenCode.
Import ListNotations.
Open Scope string_scope.
Open Scope list_scope.

(** A type has a class with its attributes, a reference to the class of every
    attribute group it refers to, and its elements, in this order. *)
Theorem C71_references_partial :
  forall sort n rt limit O nss known x code m bl cts ct name i els attrs refs eps aps qs, list_sort sort ->
  Forall (fun n => identifier n = true) known -> schema_to_py sort n nss known x = Ok code -> load rt limit O code = Ok m ->
  has x "complexTypes" (VList bl cts) -> In ct cts -> has ct "name" (VStr name) ->
  Forall2 states_element els eps -> Forall2 states_attribute attrs aps -> Forall2 states_reference refs qs -> usable_refs (aps ++ eps) qs ->
  lacks ct "complexContent" -> states_content_refs ct i els attrs refs ->
  exists d, module_class m (capital name) d /\ cd_mro d = [capital name; "xsd.ComplexType"] /\ cd_kind d = CKPlain /\
    cd_ind d = match i with Some i => i | None => ISequence end /\
    exists o1 o2 o3, cd_fields d = o1 ++ o2 ++ o3 /\ Forall2 (mirrors m nss) aps o1 /\ Forall2 (refers m nss) qs o2 /\ Forall2 (mirrors m nss) eps o3.
Proof. exact plain_refs_printed. Qed.
Print Assumptions C71_references_partial.
(** The same for an extension, after what it has of its base. *)
Theorem C71_extension_references_partial :
  forall sort n rt limit O nss known x code m bl cts ct name i els attrs refs eps aps qs, list_sort sort ->
  Forall (fun n => identifier n = true) known -> schema_to_py sort n nss known x = Ok code -> load rt limit O code = Ok m ->
  has x "complexTypes" (VList bl cts) -> In ct cts -> has ct "name" (VStr name) ->
  Forall2 states_element els eps -> Forall2 states_attribute attrs aps -> Forall2 states_reference refs qs -> usable_refs (aps ++ eps) qs ->
  forall cc ex q p local, has ct "complexContent" cc -> is_a cc "ComplexContent" -> lacks cc "restriction" ->
  has cc "extension" ex -> is_a ex "Extension" -> has ex "base" (VStr q) -> qualified_name q p local -> ~ In p nss ->
  states_content_refs ex i els attrs refs ->
  (forall db f, module_class m (capital local) db -> In f (cd_fields db) -> ~ In (f_name f) ["create"; "INDICATOR"; "INHERITANCE"]) ->
  exists d db o1 o2 o3, module_class m (capital name) d /\ module_class m (capital local) db /\
    cd_mro d = capital name :: cd_mro db /\ cd_kind d = cd_kind db /\
    cd_ind d = match i with Some i => i | None => cd_ind db end /\
    cd_fields d = filter (fun f => negb (str_in (f_name f) (field_names aps eps qs))) (cd_fields db) ++ o1 ++ o2 ++ o3 /\
    Forall2 (mirrors m nss) aps o1 /\ Forall2 (refers m nss) qs o2 /\ Forall2 (mirrors m nss) eps o3.
Proof. exact derived_refs_printed. Qed.
Print Assumptions C71_extension_references_partial.

Definition r_doc : node :=
  e_schema
    [xel "attributeGroup" [("name", "marks")] [xel "attribute" [("name", "mark"); ("type", "xs:string"); ("use", "required")] []];
     xel "attributeGroup" [("name", "sizes")] [xel "attribute" [("name", "width"); ("type", "xs:string")] []];
     e_type "label"
       [e_sequence [e_element "price" [("type", "xs:string")]];
        xel "attribute" [("name", "id"); ("type", "xs:string"); ("use", "required")] [];
        xel "attributeGroup" [("ref", "sns:marks")] []];
     e_type "big"
       [xel "complexContent" []
         [xel "extension" [("base", "sns:label")] [e_sequence []; xel "attributeGroup" [("ref", "sns:sizes")] []]]]].
Definition r_x : pyval := Eval vm_compute in match g_read r_doc with Ok x => x | Err _ => VNone end.
Definition r_label : pyval := nth 0 (items r_x "complexTypes") VNone.
Definition r_big : pyval := part (part (nth 1 (items r_x "complexTypes") VNone) "complexContent") "extension".
(** The module is imported, and an object of its class reads the attribute of
    the group and writes it back. *)
Definition r_used : res (pyval * node) :=
  m <- g_module r_x ;;
  let E := module_env 20 (md_state m) in
  v <- parse_obj 20 ex_oracle E "Label" (Elem "label" [("id", "7"); ("mark", "new")] [Elem "price" [] [Text "5"]]) ;;
  x <- xml_of 20 ex_oracle E v "label" None None ;; Ok (v, x).
Example C71_references_nonvacuous :
  g_read r_doc = Ok r_x /\
  (exists code m, schema_to_py insertion_sort 20 [Some "xs"] [] r_x = Ok code /\ load g_rt 20 ex_oracle code = Ok m) /\
  has r_x "complexTypes" (VList true (items r_x "complexTypes")) /\ In r_label (items r_x "complexTypes") /\ has r_label "name" (VStr "label") /\
  lacks r_label "complexContent" /\
  Forall2 states_element (items (part r_label "sequence") "elements") [mkPt false "price" "xs:string" None ONone false] /\
  Forall2 states_attribute (items r_label "attributes") [mkPt true "id" "xs:string" (Some 1%Z) ONone false] /\
  Forall2 states_reference (items r_label "attributeGroups") [(Some "sns", "marks")] /\
  usable_refs ([mkPt true "id" "xs:string" (Some 1%Z) ONone false] ++ [mkPt false "price" "xs:string" None ONone false]) [(Some "sns", "marks")] /\
  states_content_refs r_label (Some ISequence) (items (part r_label "sequence") "elements") (items r_label "attributes") (items r_label "attributeGroups") /\
  Forall2 states_reference (items r_big "attributeGroups") [(Some "sns", "sizes")] /\
  states_content_refs r_big (Some ISequence) [] [] (items r_big "attributeGroups") /\
  exists v, r_used = Ok (v, Elem "label" [("id", "7"); ("mark", "new")] [Elem "price" [] [Text "5"]]).
Proof.
  split; [vm_compute; reflexivity|]. split.
  { assert (H : match schema_to_py insertion_sort 20 [Some "xs"] [] r_x with Ok c => match load g_rt 20 ex_oracle c with Ok _ => true | Err _ => false end | Err _ => false end = true)
      by (vm_compute; reflexivity).
    destruct (schema_to_py insertion_sort 20 [Some "xs"] [] r_x) as [c|]; [|discriminate]. destruct (load g_rt 20 ex_oracle c) as [m|] eqn:Em; [|discriminate]. eauto. }
  split; [element|]. split; [left; reflexivity|]. split; [element|]. split; [element|].
  split; [repeat constructor; element|]. split; [repeat constructor; element|].
  split.
  { constructor; [|constructor]. exists "sns:marks". split; [apply is_a_of; vm_compute; reflexivity|]. split; [element|].
    split; [vm_compute; intuition discriminate|]. split; [vm_compute; intuition discriminate|reflexivity]. }
  split.
  { split; [repeat constructor; vm_compute; intuition discriminate|]. split.
    - intros p Hp. cbn in Hp. repeat destruct Hp as [<- | Hp]; try destruct Hp; vm_compute; intuition discriminate.
    - intros q [<- | []]. vm_compute. intuition discriminate. }
  split.
  { split; [split|split].
    - exists (part r_label "sequence"), true. repeat split; element.
    - intros [] H; try congruence; apply lacks_of; vm_compute; reflexivity.
    - exists true. element.
    - exists true. element. }
  split.
  { constructor; [|constructor]. exists "sns:sizes". split; [apply is_a_of; vm_compute; reflexivity|]. split; [element|].
    split; [vm_compute; intuition discriminate|]. split; [vm_compute; intuition discriminate|reflexivity]. }
  split.
  { split; [split|split].
    - exists (part r_big "sequence"), true. repeat split; element.
    - intros [] H; try congruence; apply lacks_of; vm_compute; reflexivity.
    - exists true. element.
    - exists true. element. }
  eexists. vm_compute. reflexivity.
Qed.
