(** Classes for the theorems about the use of regenerated classes. *)
From Coq Require Import String Ascii List ZArith NArith Bool Lia.
From Verif Require Import PyBase PyRe Xml PyVal XsdSimple XsdComplex XsdMeta ExEnv LibClasses Py2Xsd SpecXsd GenOrder Xsd2Py PyLoad XsdPrefixes SpecParse SpecRound SpecGenCode SpecGenWsdl SpecUrl SpecService
  SpecLoadable SpecReclass SpecExchange PfGenWsdl6 PfOrder2 PfLeaf PfRoundEx ExGenCode ExService ExLoadable ExReclass.
Import ListNotations.
Open Scope nat_scope.
Open Scope string_scope.
Open Scope list_scope.

Definition x_info : sinfo := {| si_tns := Some "urn:shop"; si_efd := "qualified" |}.
(** Instances of the classes Kind and Zip. *)
Definition x_kind : stype := SString "Kind" {| sf_enum := Some ["A"; "B"]; sf_pattern := None; sf_length := None; sf_minLength := None; sf_maxLength := None; sf_ws := None |}.
Definition x_zip : stype := SString "Zip" {| sf_enum := None; sf_pattern := Some (g_re "\d+"); sf_length := None; sf_minLength := None; sf_maxLength := None; sf_ws := None |}.
(** [class Item(ComplexType): name = Element(String); _class = Element(Kind, tagname='class', minOccurs=0)] *)
Definition x_item : classdef :=
  mkClass ["Item"; "xsd.ComplexType"] CKPlain [ex_elem "name" t_str; mkField "_class" KElement (TSimple x_kind) (Some "class") (Some 0%Z) ONone false VNone None] ISequence (Some x_info).
(** [class Maker(ComplexType): zip = Element(Zip, nillable=True); offer = ListElement(Item, 'offer', minOccurs=0, maxOccurs=3)] *)
Definition x_maker : classdef :=
  mkClass ["Maker"; "xsd.ComplexType"] CKPlain [ex_nil "zip" (TSimple x_zip); ex_list "offer" "offer" (TComplex "Item") (Some 0%Z) (OInt 3)] ISequence (Some x_info).
(** [class Order(ComplexType): number = Element(Integer); item = ListElement(Item, 'item', minOccurs=1, maxOccurs=UNBOUNDED); maker = Element(Maker, minOccurs=0)] *)
Definition x_order : classdef :=
  mkClass ["Order"; "xsd.ComplexType"] CKPlain
    [ex_elem "number" t_int; ex_list "item" "item" (TComplex "Item") (Some 1%Z) OUnbounded; mkField "maker" KElement (TComplex "Maker") None (Some 0%Z) ONone false VNone None]
    ISequence (Some x_info).
Definition x_env : env := mkEnv (fun c => assoc c [("Item", x_item); ("Maker", x_maker); ("Order", x_order)]) 20.
Definition x_schema : gschema :=
  mkGs "urn:shop" "qualified" [] [] [r_kind; r_zip] ["Order"; "Item"; "Maker"] [("order", mkGel (TComplex "Order") true None)].

Lemma x_describable : schema_describable ex_oracle x_env r_decls x_schema.
Proof.
  split; [reflexivity|]. split; [now left|]. split; [constructor|]. split; [constructor|]. split; [|split].
  - apply Forall_cons; [|apply Forall_cons; [|apply Forall_nil]]; (split; [split; [discriminate|reflexivity]|]; split; [split; [discriminate|reflexivity]|];
      split; [repeat constructor; eexists; split; reflexivity|]; split; r_text).
  - apply Forall_cons; [r_class|apply Forall_cons; [r_class|apply Forall_cons; [r_class|apply Forall_nil]]].
  - apply Forall_cons; [|apply Forall_nil]. split; [reflexivity|]. split; [discriminate|]. cbn [snd ge_class ge_type]. split; [discriminate|reflexivity].
Qed.
Ltac x_again := eexists; split; [reflexivity|]; split; [repeat constructor; vm_compute; intuition discriminate|]; split; [cbn [cd_fields x_item x_maker x_order app]; all_of r_good|vm_compute; lia].
Lemma x_reproducible : schema_reproducible x_env r_decls 20 r_rank x_schema.
Proof.
  split; [plain|]. split; [vm_compute; intuition discriminate|]. split; [reflexivity|]. split; [reflexivity|].
  split; [repeat constructor; vm_compute; intuition discriminate|]. split; [repeat constructor; vm_compute; intuition discriminate|].
  split; [cbn; all_of (split; [name|reflexivity])|]. split; [|split].
  - apply Forall_cons; [|apply Forall_cons; [|apply Forall_nil]]; (split; [split; [reflexivity|split; [discriminate|reflexivity]]|]; split; [cbn; all_of plain|]).
    + discriminate.
    + intros p [= <-]. plain.
  - apply Forall_cons; [x_again|apply Forall_cons; [x_again|apply Forall_cons; [x_again|apply Forall_nil]]].
  - apply Forall_cons; [|apply Forall_nil]. split; [plain|]. split; [discriminate|]. cbn [snd ge_class ge_type]. cbn. tauto.
Qed.
Ltac x_string st := right; exists st; split; [cbn; tauto|]; split; [eexists; reflexivity|]; split; [reflexivity|]; split; [first [now left | right; eexists; split; [reflexivity|discriminate]]|reflexivity].
Ltac x_simple := let u := fresh in let H := fresh in intros u H; first [discriminate H | injection H as <-; first [left; split; [reflexivity|split; [discriminate|reflexivity]] | x_string r_kind | x_string r_zip]].
Ltac x_field := split; [reflexivity|]; split; [discriminate|]; split; [reflexivity|]; split; [reflexivity|]; split; [discriminate|x_simple].
Ltac x_class := eexists; split; [reflexivity|]; split; [reflexivity|]; split; [now left|]; split; [reflexivity|]; cbn [cd_fields x_item x_maker x_order]; all_of x_field.
Lemma x_faithful : schema_faithful g_rt x_env x_schema.
Proof. apply Forall_cons; [x_class|apply Forall_cons; [x_class|apply Forall_cons; [x_class|apply Forall_nil]]]. Qed.
Lemma x_flat : flat x_env x_schema.
Proof.
  intros c c' d I I' H M. cbn in I, I'. destruct I as [<-|[<-|[<-|[]]]]; injection H as <-; cbn in M; destruct I' as [<-|[<-|[<-|[]]]]; try reflexivity; exfalso; intuition discriminate.
Qed.
Definition x_own (c : string) : Prop := In c (gs_complex x_schema).

(** An order with two items. *)
Definition x_piece (n : string) (k : pyval) : pyval := VObj "Item" None [("name", VStr n); ("_class", k)].
Definition x_value : pyval :=
  VObj "Order" None [("number", VInt 7); ("item", VList true [x_piece "nut" (VStr "B"); x_piece "bolt" VNone]);
    ("maker", VObj "Maker" None [("zip", VNil); ("offer", VList true [])])].
Definition x_kw : list (string * pyval) := [("number", VInt 7); ("maker", VObj "Maker" None [("zip", VNil); ("offer", VList true [])])].

Ltac x_made := repeat first [apply Forall_cons; cbn [snd] | apply Forall_nil | apply mo_obj; [cbn; tauto|] | apply mo_list | apply mo_other; discriminate].
Lemma x_made_value : made_of (gs_complex x_schema) x_value.
Proof. unfold x_value, x_piece. x_made. Qed.
Lemma x_made_kw : Forall (fun p => made_of (gs_complex x_schema) (snd p)) x_kw.
Proof. unfold x_kw. x_made. Qed.

Lemma flat_own E c d : e_cls E c = Some d -> Forall (fun f => is_group f = false) (cd_fields d) -> flat_fields E c (cd_fields d).
Proof.
  intros H F. assert (X : exists blocks, Forall2 (flat_one E) (cd_fields d) blocks /\ concat blocks = cd_fields d).
  { clear H. induction F as [|f l Hf F (bl & B1 & B2)]; [exists []; split; [constructor|reflexivity]|]. exists ([f] :: bl). split; [constructor; [now constructor|exact B1]|cbn; now rewrite B2]. }
  destruct X as (bl & B1 & B2). replace (flat_fields E c (cd_fields d)) with (flat_fields E c (concat bl)) by (now rewrite B2). now apply fl_class with d.
Qed.
Ltac x_pair := split; [discriminate|]; intros _ _; split; unfold confused; vm_compute; intuition discriminate.
Ltac x_rt d := exists d, (cd_fields d); split; [reflexivity|]; split; [discriminate|]; split; [discriminate|]; split; [now left|];
    split; [cbn; intuition discriminate|]; split; [repeat constructor; cbn; intuition discriminate|]; split; [eexists; vm_compute; reflexivity|]; split;
    [let f := fresh in let I := fresh in intros f I; cbn in I; repeat (destruct I as [<- | I]; [split; [reflexivity|]; split; [exact Logic.I|]; cbn [f_kind];
       cbn; try (split; [eauto|]); let q := fresh in intros ? q; first [discriminate q | injection q as <-; cbn; tauto]|]); destruct I
    |split; [apply flat_own; [reflexivity|repeat constructor]|repeat first [apply FOP_cons; [repeat (apply Forall_cons; [x_pair|]); apply Forall_nil|] | apply FOP_nil]]].
Lemma x_rt_classes : rt_classes ex_oracle x_env x_own.
Proof. intros c I. unfold x_own in I. cbn in I. destruct I as [<-|[<-|[<-|[]]]]; [x_rt x_order|x_rt x_item|x_rt x_maker]. Qed.

Ltac x_leaf := apply rt_leaf; split; [discriminate|]; split; [discriminate|]; eexists; split; [vm_compute; reflexivity|]; split; [discriminate|]; split; [reflexivity|]; split; vm_compute; reflexivity.
Ltac x_obj tac := eapply rt_obj; [reflexivity|reflexivity|]; let f := fresh in let v := fresh in let I := fresh in let A := fresh in intros f v I A; cbn in I;
  repeat (destruct I as [<- | I]; [cbn in A; injection A as <-; tac|]); try destruct I.
Lemma x_piece_typed n k : leaf_ok ex_oracle (SString "String" no_sfacets) (VStr n) -> k = VNone \/ k = VStr "B" -> rt_typed ex_oracle x_env (TComplex "Item") (x_piece n k).
Proof.
  intros L K. unfold x_piece. x_obj idtac.
  - apply rf_val; [reflexivity|discriminate|discriminate|]. now apply rt_leaf.
  - destruct K as [-> | ->]; [now apply rf_none|]. apply rf_val; [reflexivity|discriminate|discriminate|]. x_leaf.
Qed.
Lemma x_typed : rt_typed ex_oracle x_env (TComplex "Order") x_value.
Proof.
  unfold x_value. x_obj idtac.
  - apply rf_val; [reflexivity|discriminate|discriminate|]. x_leaf.
  - apply rf_list; [reflexivity|intros m [= <-]; cbn; lia|discriminate|].
    apply Forall_cons; [|apply Forall_cons; [|apply Forall_nil]]; (right; split; [discriminate|]; split; [discriminate|]; apply x_piece_typed; [|auto];
      split; [discriminate|]; split; [discriminate|]; eexists; split; [vm_compute; reflexivity|]; split; [discriminate|]; split; [reflexivity|]; split; vm_compute; reflexivity).
  - apply rf_val; [reflexivity|discriminate|discriminate|]. x_obj idtac.
    + now apply rf_nil.
    + apply rf_list; [reflexivity|intros m [= <-]; cbn; lia|intros m [= <-]; cbn; lia|constructor].
Qed.

(** A class, one derived from it, and one with an element of the former. *)
Definition d_base : classdef := mkClass ["Base"; "xsd.ComplexType"] CKPlain [ex_elem "a" t_str] ISequence (Some x_info).
Definition d_derived : classdef := mkClass ["Derived"; "Base"; "xsd.ComplexType"] CKPlain [ex_elem "a" t_str; ex_elem "b" t_str] ISequence (Some x_info).
Definition d_holder : classdef := mkClass ["Holder"; "xsd.ComplexType"] CKPlain [ex_elem "base" (TComplex "Base")] ISequence (Some x_info).
Definition d_env : env := mkEnv (fun c => assoc c [("Base", d_base); ("Derived", d_derived); ("Holder", d_holder)]) 20.
Definition d_schema : gschema := mkGs "urn:shop" "qualified" [] [] [] ["Base"; "Derived"; "Holder"] [].
Definition d_back : res module :=
  doc <- generate_xsd 8 ex_oracle (lib_env 10) d_env r_decls d_schema ;; regenerate insertion_sort 20 g_rt 20 8 ex_oracle (lib_env 10) doc (xd_root doc).
Definition d_kw : list (string * pyval) := [("base", VObj "Derived" None [("a", VStr "x"); ("b", VStr "y")])].
