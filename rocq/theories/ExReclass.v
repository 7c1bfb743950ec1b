(** Classes for the theorems about regenerated classes. *)
From Coq Require Import String Ascii List ZArith NArith Bool Lia.
From Verif Require Import PyBase PyRe Xml PyVal XsdSimple XsdComplex XsdMeta ExEnv LibClasses Py2Xsd SpecXsd GenOrder Xsd2Py PyLoad XsdPrefixes SpecGenCode SpecGenWsdl SpecUrl SpecService
  SpecLoadable SpecReclass PfGenWsdl6 PfOrder2 ExGenCode ExService ExLoadable.
Import ListNotations.
Open Scope nat_scope.
Open Scope string_scope.
Open Scope list_scope.

(** [class Kind(String): enumeration = ['A', 'B']] and [class Zip(String): pattern = r'\d+'] *)
Definition r_kind : stclass := mkSt "Kind" (SString "String" no_sfacets) [VStr "A"; VStr "B"] VNone VNone.
Definition r_zip : stclass := mkSt "Zip" (SString "String" no_sfacets) [] VNone (VStr "\d+").
Definition t_kind : ftype := TSimple (SString "Kind" no_sfacets).
(** [class Item(ComplexType): name = Element(String); kind = Element(Kind, tagname='class', minOccurs=0)] *)
Definition r_item : classdef :=
  mkClass ["Item"; "xsd.ComplexType"] CKPlain [ex_elem "name" t_str; mkField "kind" KElement t_kind (Some "class") (Some 0%Z) ONone false VNone None] ISequence None.
(** [class Maker(ComplexType): INDICATOR = Choice; since = Element(Date, nillable=True); offers = ListElement(Item, 'offer', minOccurs=0, maxOccurs=3)] *)
Definition r_maker : classdef :=
  mkClass ["Maker"; "xsd.ComplexType"] CKPlain [ex_nil "since" (TSimple SDate); ex_list "offers" "offer" (TComplex "Item") (Some 0%Z) (OInt 3)] IChoice None.
(** [class Order(Item): items = ListElement(Item, 'item', minOccurs=1, maxOccurs=UNBOUNDED); maker = Element(Maker, minOccurs=0)] *)
Definition r_order : classdef :=
  mkClass ["Order"; "Item"; "xsd.ComplexType"] CKPlain
    (cd_fields r_item ++ [ex_list "items" "item" (TComplex "Item") (Some 1%Z) OUnbounded; mkField "maker" KElement (TComplex "Maker") None (Some 0%Z) ONone false VNone None])
    ISequence None.
Definition r_env : env := mkEnv (fun c => assoc c [("Item", r_item); ("Maker", r_maker); ("Order", r_order)]) 10.
Definition r_decls : decls := {| dc_class := fun _ _ => true; dc_use := fun _ _ => "required"; dc_re := fun _ => "" |}.
Definition r_schema : gschema :=
  mkGs "urn:shop" "qualified" [] [] [r_kind; r_zip] ["Order"; "Item"; "Maker"]
    [("order", mkGel (TComplex "Order") true None); ("box", mkGel (TComplex "Maker") false (Some "order"))].
Definition r_rank (n : string) : nat := if String.eqb n "Order" then 2 else if String.eqb n "Item" then 0 else 1.

Ltac r_field := split; [reflexivity|split; [split; [discriminate|reflexivity]|discriminate]].
Ltac r_fields := let f := fresh in let I := fresh in intros f I _; cbn in I; repeat (destruct I as [<- | I]; [r_field|]); destruct I.
Ltac r_class := eexists; split; [reflexivity|]; split; [split; [discriminate|reflexivity]|]; split; [repeat constructor|r_fields].
Ltac r_text := first [now left | right; eexists; split; reflexivity].
Lemma r_describable : schema_describable ex_oracle r_env r_decls r_schema.
Proof.
  split; [reflexivity|]. split; [now left|]. split; [constructor|]. split; [constructor|]. split; [|split].
  - apply Forall_cons; [|apply Forall_cons; [|apply Forall_nil]]; (split; [split; [discriminate|reflexivity]|]; split; [split; [discriminate|reflexivity]|];
      split; [repeat constructor; eexists; split; reflexivity|]; split; r_text).
  - apply Forall_cons; [r_class|apply Forall_cons; [r_class|apply Forall_cons; [r_class|apply Forall_nil]]].
  - apply Forall_cons; [|apply Forall_cons; [|apply Forall_nil]]; (split; [reflexivity|]; split; [intros ? X; (discriminate X || (injection X as <-; reflexivity))|]; cbn [snd ge_class ge_type]).
    + split; [discriminate|reflexivity].
    + exists "Maker". split; [reflexivity|r_class].
Qed.
Ltac r_type := first [left; split; [reflexivity|split; [discriminate|reflexivity]] | right; split; [cbn; tauto|reflexivity] | cbn; tauto].
Ltac r_occurs := first [left; split; reflexivity | right; split; [reflexivity|]; split; [auto|]; let E := fresh in intros ? E; first [discriminate E | injection E as <-; vm_compute; lia]].
Ltac r_good := split; [reflexivity|]; split; [is_word|]; split; [vm_compute; intuition discriminate|]; split; [r_type|r_occurs].
Ltac r_again := eexists; split; [reflexivity|]; split; [repeat constructor; vm_compute; intuition discriminate|]; split; [cbn [cd_fields r_item r_maker r_order app]; all_of r_good|vm_compute; lia].
Lemma r_reproducible : schema_reproducible r_env r_decls 20 r_rank r_schema.
Proof.
  split; [plain|]. split; [vm_compute; intuition discriminate|]. split; [reflexivity|]. split; [reflexivity|].
  split; [repeat constructor; vm_compute; intuition discriminate|]. split; [repeat constructor; vm_compute; intuition discriminate|].
  split; [cbn; all_of (split; [name|reflexivity])|]. split; [|split].
  - apply Forall_cons; [|apply Forall_cons; [|apply Forall_nil]]; (split; [split; [reflexivity|split; [discriminate|reflexivity]]|]; split; [cbn; all_of plain|]).
    + discriminate.
    + intros p [= <-]. plain.
  - apply Forall_cons; [r_again|apply Forall_cons; [r_again|apply Forall_cons; [r_again|apply Forall_nil]]].
  - apply Forall_cons; [|apply Forall_cons; [|apply Forall_nil]]; (split; [plain|]; split; [intros ? X; (discriminate X || (injection X as <-; plain))|]; cbn [snd ge_class ge_type]).
    + cbn. tauto.
    + intros c [= <-]. r_again.
Qed.

(** One class in a schema of its own, written and read again. *)
Definition r_back (f : field) : res module :=
  let E := mkEnv (fun c => assoc c [("T", mkClass ["T"; "xsd.ComplexType"] CKPlain [f] ISequence None)]) 10 in
  doc <- generate_xsd 8 ex_oracle (lib_env 10) E r_decls (mkGs "urn:shop" "qualified" [] [] [] ["T"] []) ;;
  regenerate insertion_sort 20 g_rt 20 8 ex_oracle (lib_env 10) doc (xd_root doc).
Definition r_field_of (m : module) : option field :=
  match e_cls (module_env 20 (md_state m)) "T" with Some d => nth_error (cd_fields d) 0 | None => None end.
