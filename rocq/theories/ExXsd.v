(** A schema for the theorems about generated XSD documents. *)
From Coq Require Import String Ascii List ZArith NArith Bool.
From Verif Require Import PyBase PyRe Xml PyVal XsdSimple XsdComplex ExEnv LibClasses Py2Xsd SpecXsd SpecFacets.
Import ListNotations.
Open Scope string_scope.
Open Scope list_scope.

Definition x_size : ftype :=
  TSimple (SString "String" {| sf_enum := Some ["S"; "M"]; sf_pattern := None; sf_length := Some 1%Z; sf_minLength := None;
                               sf_maxLength := None; sf_ws := None |}).
Definition x_count : ftype :=
  TSimple (SInteger CInteger {| df_enum := Some [VInt 0; VInt 5]; df_fraction := None; df_maxEx := None; df_maxIn := Some (VInt 9);
                                df_minEx := None; df_minIn := Some (VInt 0); df_pattern := None; df_total := Some 2%Z |}).
Definition x_rank : ftype := TSimple (SInteger CPositiveInteger no_dfacets).
(** [class Item(ComplexType): size = Element(String(enumeration=['S', 'M'], length=1));
    count = Element(Integer(enumeration=[0, 5], minInclusive=0, maxInclusive=9, totalDigits=2), minOccurs=0);
    rank = Element(PositiveInteger)] *)
Definition cd_item : classdef :=
  mkClass ["Item"] CKPlain [ex_elem "size" x_size; mkField "count" KElement x_count None (Some 0%Z) ONone false VNone None;
                            ex_elem "rank" x_rank] ISequence None.
(** [class Order(ComplexType): INDICATOR = Choice; items = ListElement(Item, 'item', minOccurs=1, maxOccurs=UNBOUNDED);
    when = Element(Date, nillable=True); code = Element(Code)] *)
Definition cd_xorder : classdef :=
  mkClass ["Order"] CKPlain [ex_list "items" "item" (TComplex "Item") (Some 1%Z) OUnbounded; ex_nil "when" (TSimple SDate);
                             ex_elem "code" (TSimple (SString "Code" no_sfacets))] IChoice None.
(** [class Tagged(ComplexType): id = Attribute(String)] *)
Definition cd_xtag : classdef := mkClass ["Tag"] CKPlain [ex_attr "id" t_str true] ISequence None.
Definition x_env : env := mkEnv (fun c => assoc c [("Item", cd_item); ("Order", cd_xorder); ("Tag", cd_xtag)]) 10.
(** Types with facets were passed as instances, the others as classes. *)
Definition x_decls : decls :=
  {| dc_class := fun _ f => negb (str_in (f_name f) ["size"; "count"]); dc_use := fun _ _ => "required"; dc_re := fun _ => "[A-Z]+" |}.
Definition x_schema : gschema :=
  mkGs "urn:shop" "qualified" [("urn:other", None); ("urn:base", Some "base.xsd")] [Some "common.xsd"]
    [mkSt "Code" (SString "String" no_sfacets) [VStr "A"; VStr "B"] VNone (VStr "[A-Z]")]
    ["Item"; "Order"]
    [("order", mkGel (TComplex "Order") true None); ("box", mkGel (TComplex "Item") false (Some "thing"))].
Definition x_with (s : gschema) (classes : list string) (includes : list (option string)) (simple : list stclass) : gschema :=
  mkGs (gs_tns s) (gs_efd s) (gs_imports s) includes simple classes (gs_elements s).

Lemma x_item : class_describable ex_oracle x_env x_decls "Item".
Proof.
  eexists. split; [reflexivity|]. split; [split; [discriminate|reflexivity]|]. split; [repeat constructor|].
  intros f Hf _. cbn in Hf. repeat destruct Hf as [<- |Hf]; try destruct Hf;
    (split; [reflexivity|]; split; [split; [discriminate|reflexivity]|]; intros G; try discriminate);
    repeat split; try discriminate; try (intros; repeat constructor; eexists; split; reflexivity);
    intros v E; injection E as <-; reflexivity.
Qed.
Lemma x_order : class_describable ex_oracle x_env x_decls "Order".
Proof.
  eexists. split; [reflexivity|]. split; [split; [discriminate|reflexivity]|]. split; [repeat constructor|].
  intros f Hf _. cbn in Hf. repeat destruct Hf as [<- |Hf]; try destruct Hf;
    (split; [reflexivity|]; split; [split; [discriminate|reflexivity]|]; intros G; discriminate).
Qed.
Lemma x_describable : schema_describable ex_oracle x_env x_decls x_schema.
Proof.
  split; [reflexivity|]. split; [now left|]. split; [|split; [|split; [|split]]].
  - repeat constructor; cbn; intros; try discriminate. now injection H as <-.
  - repeat constructor. exists "common.xsd". repeat split. discriminate.
  - constructor; [|constructor]. split; [split; [discriminate|reflexivity]|]. split; [split; [discriminate|reflexivity]|].
    split; [repeat constructor; eexists; split; reflexivity|]. split; [now left|]. right. eexists; split; reflexivity.
  - repeat constructor; [apply x_item|apply x_order].
  - repeat constructor; cbn; try discriminate.
    + intros v [= <-]. reflexivity.
    + exists "Item". split; [reflexivity|apply x_item].
Qed.
