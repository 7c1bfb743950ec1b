(** Services for the theorems about generated WSDL documents. *)
From Coq Require Import String Ascii List ZArith NArith Bool.
From Verif Require Import PyBase PyRe Xml PyVal XsdSimple XsdComplex PyHttp Soap Client Dispatch ExEnv LibClasses Py2Xsd SpecXsd SpecFacets ExXsd
  Py2Wsdl SpecGenWsdl.
Import ListNotations.
Open Scope string_scope.
Open Scope list_scope.

(** [Method(operationName='place', soapAction='urn:place', input='order', output=Item)] *)
Definition w_place : wmethod := mkWm "place" "urn:place" (IOName "order") (IOClass "Item") "document".
Definition w_pack : wmethod := mkWm "pack" "" (IOClass "Order") (IOName "box") "rpc".
Definition w_shop : wservice := mkWs "Shop" "urn:shopping" "http://example.org/shop" [x_schema] V12 [w_place; w_pack].
(** Another schema, with an element of its own, and a service whose second schema it is. *)
Definition x_second : gschema := mkGs "urn:tags" "qualified" [] [] [] [] [("tag", mkGel (TComplex "Item") true None)].
Definition w_tag : wmethod := mkWm "tag" "urn:tag" (IOName "tag") (IOName "order") "document".
Definition w_two : wservice := mkWs "Shop" "urn:shopping" "http://example.org/shop" [x_schema; x_second] V11 [w_tag].
(** Operations that share a name; a service without schemas. *)
Definition w_twice : wservice :=
  mkWs "Shop" "urn:shopping" "http://example.org/shop" [x_schema] V11 [w_place; mkWm "place" "urn:other" (IOName "box") (IOName "box") "document"].
Definition w_colon : wservice :=
  mkWs "Shop" "urn:shopping" "http://example.org/shop" [x_schema] V11 [mkWm "a:b" "urn:other" (IOName "box") (IOName "box") "document"].
Definition w_bare : wservice := mkWs "Shop" "urn:shopping" "http://example.org/shop" [] V11 [w_place].
Definition w_oneway : wservice :=
  mkWs "Shop" "urn:shopping" "http://example.org/shop" [x_schema] V11 [mkWm "notify" "urn:notify" (IOName "order") IONone "document"].

Lemma x_second_describable : schema_describable ex_oracle x_env x_decls x_second.
Proof.
  split; [reflexivity|]. split; [now left|]. repeat (split; [constructor|]). repeat constructor; cbn; try discriminate.
Qed.
Ltac describe :=
  split; [reflexivity|]; split; [reflexivity|]; split; [reflexivity|]; split; [discriminate|]; split;
  [repeat (apply Forall_cons; [first [apply x_describable | apply x_second_describable]|]); apply Forall_nil|];
  repeat (apply Forall_cons; [split; [reflexivity|]; split; [reflexivity|]; split; [first [reflexivity | split; [discriminate|reflexivity]]|]; split;
    [first [reflexivity | split; [discriminate|reflexivity]]|first [left; reflexivity | right; reflexivity]]|]); apply Forall_nil.
Lemma w_shop_describable : service_describable ex_oracle x_env x_decls w_shop.
Proof. describe. Qed.
Lemma w_two_describable : service_describable ex_oracle x_env x_decls w_two.
Proof. describe. Qed.
Lemma w_twice_describable : service_describable ex_oracle x_env x_decls w_twice.
Proof. describe. Qed.
Lemma w_colon_describable : service_describable ex_oracle x_env x_decls w_colon.
Proof. describe. Qed.
Ltac refer :=
  split; [vm_compute; intuition discriminate|]; split;
  [repeat constructor; vm_compute; intuition discriminate|cbn; repeat constructor; cbn; intuition discriminate].
Lemma w_shop_referable : referable w_shop.
Proof. refer. Qed.
Lemma w_two_referable : referable w_two.
Proof. refer. Qed.
Lemma w_bare_ok : ws_schemas w_bare = [] /\ Forall method_describable (ws_methods w_bare) /\ ws_methods w_bare <> [].
Proof.
  split; [reflexivity|]. split; [|discriminate]. apply Forall_cons; [|apply Forall_nil].
  split; [reflexivity|]. split; [reflexivity|]. split; [reflexivity|]. split; [split; [discriminate|reflexivity]|left; reflexivity].
Qed.
