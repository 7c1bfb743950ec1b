(** A service for the theorems about modules generated from WSDL documents. *)
From Coq Require Import String Ascii List ZArith NArith Bool Lia.
From Verif Require Import PyBase PfBase PyRe Xml PyVal XsdSimple XsdComplex XsdMeta XsdSchema PyHttp Soap Dispatch Client ExEnv LibClasses Py2Xsd SpecXsd Py2Wsdl GenOrder Xsd2Py PyLoad XsdPrefixes PyUrl Wsdl2Py PyService PyModule
  SpecParse SpecRound SpecGenCode SpecGenWsdl SpecUrl SpecService SpecRegen SpecLoadable SpecReclass SpecExchange SpecModule PfGenWsdl6 PfOrder2 ExGenWsdl ExGenCode ExService ExInterop ExLoadable ExReclass ExExchange.
Import ListNotations.
Open Scope nat_scope.
Open Scope string_scope.
Open Scope list_scope.

(** The classes of ExExchange.v with an element for two of them. *)
Definition m_schema : gschema :=
  mkGs "urn:shop" "qualified" [] [] [r_kind; r_zip] ["Order"; "Item"; "Maker"]
    [("order", mkGel (TComplex "Order") true None); ("maker", mkGel (TComplex "Maker") true (Some "order"))].
Lemma m_describable : schema_describable ex_oracle x_env r_decls m_schema.
Proof.
  split; [reflexivity|]. split; [now left|]. split; [constructor|]. split; [constructor|]. split; [|split].
  - apply Forall_cons; [|apply Forall_cons; [|apply Forall_nil]]; (split; [split; [discriminate|reflexivity]|]; split; [split; [discriminate|reflexivity]|];
      split; [repeat constructor; eexists; split; reflexivity|]; split; r_text).
  - apply Forall_cons; [r_class|apply Forall_cons; [r_class|apply Forall_cons; [r_class|apply Forall_nil]]].
  - apply Forall_cons; [|apply Forall_cons; [|apply Forall_nil]]; (split; [reflexivity|]; split; [intros ? X; (discriminate X || (injection X as <-; reflexivity))|]; cbn [snd ge_class ge_type]; split; [discriminate|reflexivity]).
Qed.
Lemma m_reproducible : schema_reproducible x_env r_decls 20 r_rank m_schema.
Proof.
  split; [plain|]. split; [vm_compute; intuition discriminate|]. split; [reflexivity|]. split; [reflexivity|].
  split; [repeat constructor; vm_compute; intuition discriminate|]. split; [repeat constructor; vm_compute; intuition discriminate|].
  split; [cbn; all_of (split; [name|reflexivity])|]. split; [|split].
  - apply Forall_cons; [|apply Forall_cons; [|apply Forall_nil]]; (split; [split; [reflexivity|split; [discriminate|reflexivity]]|]; split; [cbn; all_of plain|]).
    + discriminate.
    + intros p [= <-]. plain.
  - apply Forall_cons; [x_again|apply Forall_cons; [x_again|apply Forall_cons; [x_again|apply Forall_nil]]].
  - apply Forall_cons; [|apply Forall_cons; [|apply Forall_nil]]; (split; [plain|]; split; [intros ? X; (discriminate X || (injection X as <-; plain))|]; cbn [snd ge_class ge_type]; cbn; tauto).
Qed.
Lemma m_faithful : schema_faithful g_rt x_env m_schema.
Proof. exact x_faithful. Qed.
Lemma m_flat : flat x_env m_schema.
Proof. exact x_flat. Qed.

Definition m_place : wmethod := mkWm "place" "urn:place" (IOName "order") (IOName "maker") "document".
Definition m_ask : wmethod := mkWm "ask" "urn:ask" (IOName "maker") (IOName "order") "rpc".
Definition m_address : address := mkAddr "http" "example.org" "/shop" None None.
Definition m_shop : wservice := mkWs "Shop" "urn:shopping" "http://example.org/shop" [m_schema] V12 [m_place; m_ask].
Lemma m_shop_describable : service_describable ex_oracle x_env r_decls m_shop.
Proof.
  split; [reflexivity|]; split; [reflexivity|]; split; [reflexivity|]; split; [discriminate|]; split.
  - constructor; [exact m_describable|constructor].
  - constructor; [|constructor; [|constructor]]; (split; [reflexivity|]; split; [reflexivity|]; split; [reflexivity|]; split; [reflexivity|]; first [now left|now right]).
Qed.
Lemma m_shop_referable : referable m_shop.
Proof. refer. Qed.
Lemma m_shop_regenerable : service_regenerable m_shop m_address.
Proof.
  split; [name|]. split; [quote|]. split; [reflexivity|]. split; [address|]. split; [nothing_empty|]. split; [without_tac|].
  constructor; [|constructor; [|constructor]]; (split; [name|]; split; [quote|]; eexists _, _; split; [reflexivity|]; split; [reflexivity|]; split; name).
Qed.
Lemma m_client : client_regenerable m_shop.
Proof. intros m [<-|[<-|[]]]; split; discriminate. Qed.
Lemma m_server : server_regenerable m_shop.
Proof.
  intros m [<-|[<-|[]]]; (split; [discriminate|]; split; [cbn; intuition discriminate|]; intros x; split; [apply too_short_end; cbn; Lia.lia|];
    split; [|apply too_short_start; cbn; Lia.lia]; apply other_end; eexists _, _; split; [vm_compute; reflexivity|]; split; [reflexivity|discriminate]).
Qed.
Lemma m_namespace : ~ In (ws_tns m_shop) [ns_xsd; ns_xsd2000].
Proof. vm_compute. intuition discriminate. Qed.
Lemma m_hex : hex5 (i_md5 (gs_tns m_schema)).
Proof. split; [reflexivity|]. every_char. Qed.

Definition m_import (server : bool) (s : wservice) : res wmodule :=
  doc <- generate_wsdl 14 ex_oracle (lib_env 10) x_env r_decls s ;;
  import_wsdl insertion_sort 20 g_rt 20 14 ex_oracle (lib_env 10) i_md5 v_checked server doc (wire (xd_root doc)).
(** A service with an operation called like a class. *)
Definition m_order_op : wmethod := mkWm "Order" "urn:order" (IOName "order") (IOName "maker") "document".
Definition m_clash : wservice := mkWs "Shop" "urn:shopping" "http://example.org/shop" [m_schema] V12 [m_order_op].
