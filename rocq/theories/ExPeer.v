(** A service whose generated client and server talk to each other. *)
From Coq Require Import String Ascii List ZArith NArith Bool Lia.
From Verif Require Import PyBase PfBase PyRe Xml PyVal XsdSimple XsdComplex XsdMeta XsdSchema PyHttp Soap Dispatch Client ExEnv LibClasses Py2Xsd SpecXsd Py2Wsdl GenOrder Xsd2Py PyLoad XsdPrefixes PyUrl Wsdl2Py PyService PyInterop PyModule
  SpecParse SpecRound SpecSoap SpecDispatch SpecHttp SpecClient SpecGenCode SpecGenWsdl SpecUrl SpecService SpecRegen SpecLoadable SpecReclass SpecExchange SpecModule SpecPeer PfGenWsdl6 PfOrder2 PfRoundEx ExSoap ExGenWsdl ExGenCode ExService ExInterop ExLoadable ExReclass ExExchange ExModule.
Import ListNotations.
Open Scope nat_scope.
Open Scope string_scope.
Open Scope list_scope.

Definition p_item : classdef := as_user x_item.
Definition p_maker : classdef := as_user x_maker.
Definition p_order : classdef := as_user x_order.
Definition p_U (c : string) : option classdef := assoc c [("Item", p_item); ("Maker", p_maker); ("Order", p_order)].
Definition p_env : env := soap_env p_U 10.
Lemma p_describable : schema_describable ex_oracle p_env r_decls m_schema.
Proof.
  split; [reflexivity|]. split; [now left|]. split; [constructor|]. split; [constructor|]. split; [|split].
  - apply Forall_cons; [|apply Forall_cons; [|apply Forall_nil]]; (split; [split; [discriminate|reflexivity]|]; split; [split; [discriminate|reflexivity]|];
      split; [repeat constructor; eexists; split; reflexivity|]; split; r_text).
  - apply Forall_cons; [r_class|apply Forall_cons; [r_class|apply Forall_cons; [r_class|apply Forall_nil]]].
  - apply Forall_cons; [|apply Forall_cons; [|apply Forall_nil]]; (split; [reflexivity|]; split; [intros ? X; (discriminate X || (injection X as <-; reflexivity))|]; cbn [snd ge_class ge_type]; split; [discriminate|reflexivity]).
Qed.
Lemma p_shop_describable : service_describable ex_oracle p_env r_decls m_shop.
Proof.
  split; [reflexivity|]; split; [reflexivity|]; split; [reflexivity|]; split; [discriminate|]; split.
  - constructor; [exact p_describable|constructor].
  - constructor; [|constructor; [|constructor]]; (split; [reflexivity|]; split; [reflexivity|]; split; [reflexivity|]; split; [reflexivity|]; first [now left|now right]).
Qed.
Ltac p_again := eexists; split; [reflexivity|]; split; [repeat constructor; vm_compute; intuition discriminate|]; split; [cbn [cd_fields p_item p_maker p_order as_user x_item x_maker x_order app]; all_of r_good|vm_compute; lia].
Lemma p_reproducible : schema_reproducible p_env r_decls 20 r_rank m_schema.
Proof.
  split; [plain|]. split; [vm_compute; intuition discriminate|]. split; [reflexivity|]. split; [reflexivity|].
  split; [repeat constructor; vm_compute; intuition discriminate|]. split; [repeat constructor; vm_compute; intuition discriminate|].
  split; [cbn; all_of (split; [name|reflexivity])|]. split; [|split].
  - apply Forall_cons; [|apply Forall_cons; [|apply Forall_nil]]; (split; [split; [reflexivity|split; [discriminate|reflexivity]]|]; split; [cbn; all_of plain|]).
    + discriminate.
    + intros p [= <-]. plain.
  - apply Forall_cons; [p_again|apply Forall_cons; [p_again|apply Forall_cons; [p_again|apply Forall_nil]]].
  - apply Forall_cons; [|apply Forall_cons; [|apply Forall_nil]]; (split; [plain|]; split; [intros ? X; (discriminate X || (injection X as <-; plain))|]; cbn [snd ge_class ge_type]; cbn; tauto).
Qed.
Ltac p_class := eexists; split; [reflexivity|]; split; [reflexivity|]; split; [now left|]; split; [reflexivity|]; cbn [cd_fields p_item p_maker p_order as_user x_item x_maker x_order]; all_of x_field.
Lemma p_faithful : schema_faithful g_rt p_env m_schema.
Proof. apply Forall_cons; [p_class|apply Forall_cons; [p_class|apply Forall_cons; [p_class|apply Forall_nil]]]. Qed.
Lemma p_message_classes : message_classes p_U m_schema.
Proof. intros c I. cbn in I. destruct I as [<-|[<-|[<-|[]]]]; (split; [reflexivity|]; intros d [= <-]; cbn; tauto). Qed.
Lemma p_class_messages : class_messages g_rt m_schema m_shop.
Proof.
  assert (O : class_element g_rt m_schema "order") by (eexists; split; [left; reflexivity|]; split; [reflexivity|]; discriminate).
  assert (M : class_element g_rt m_schema "maker") by (eexists; split; [right; left; reflexivity|]; split; [reflexivity|]; discriminate).
  intros m [<-|[<-|[]]]; eexists _, _; (split; [reflexivity|]; split; [reflexivity|]; split; assumption).
Qed.
Definition p_doc : xdocument := Eval vm_compute in match generate_wsdl 14 ex_oracle (lib_env 10) p_env r_decls m_shop with Ok d => d | Err _ => mkDoc [] (Text "") end.
Lemma p_described : described g_rt 20 4 ex_oracle 10 10 i_md5 p_U r_decls r_rank m_shop m_address m_schema p_doc (wire (xd_root p_doc)).
Proof.
  split.
  - exact p_shop_describable.
  - exact m_shop_referable.
  - exact m_shop_regenerable.
  - reflexivity.
  - exact p_reproducible.
  - exact p_faithful.
  - exact m_namespace.
  - exact m_hex.
  - vm_compute. lia.
  - exact p_message_classes.
  - exact p_class_messages.
  - vm_compute. reflexivity.
  - apply ly_same.
Qed.

(** The running service: it places orders, but not those with the number 13. *)
Definition p_parcel : pyval := VObj "Maker" None [("zip", VNil); ("offer", VList true [x_piece "nut" (VStr "B")])].
Definition p_order_of (z : Z) : pyval :=
  VObj "Order" None [("number", VInt z); ("item", VList true [x_piece "nut" (VStr "B"); x_piece "bolt" VNone]); ("maker", VNone)].
Definition p_fn (f : string) : handler (list string) := fun s body =>
  match body with
  | VObj _ _ (("number", VInt 13) :: _) => (s, Err (SOAPError "Server" "no luck" None))
  | VObj c _ _ => ((f :: c :: fst s, snd s), Ok (RPay (PVal p_parcel)))
  | _ => (s, Err ValueError)
  end.
Definition p_place : method := mkMethod "place" "urn:place" (IOName "order") (IOName "maker") None None (Some "place").
Definition p_ask : method := mkMethod "ask" "urn:ask" (IOName "maker") (IOName "order") None None (Some "ask").
Definition p_service : service (list string) := mkService V12 [0] [p_place; p_ask] None p_fn.
Definition p_D : dispatcher (list string) := mkDisp p_service [] [] "<wsdl/>" [] true.
Definition p_G : sgraph := fun _ =>
  mkSchema (Some "urn:shop") "qualified" [("order", mkSel (TComplex "Order") None); ("maker", mkSel (TComplex "Maker") (Some "order"))] [] [] None.
Definition p_of (r : res node) : node := match r with Ok x => wire x | Err _ => Text "" end.
Definition p_docs : list node := Eval vm_compute in
  [p_of (envelope_response 10 ex_oracle p_env V12 "order" (p_order_of 7) VNone); p_of (envelope_response 10 ex_oracle p_env V12 "order" (p_order_of 13) VNone);
   p_of (envelope_response 10 ex_oracle p_env V12 "maker" p_parcel VNone); p_of (error_response 10 ex_oracle p_env V12 "Server" "no luck" VNone None)].
Definition p_P : platform :=
  mkPlat ex_oracle p_env 10 p_G 10
    (fun s => match find (fun d => String.eqb (show d) s) p_docs with Some d => Ok d | None => Err (Exn EXMLSyntaxError "") end)
    (fun x => show (wire x)) (fun _ => Ok tt) (fun _ => Ok tt) (fun _ => "").
Lemma p_hosts : hosts ex_oracle 10 p_U m_shop m_schema p_P p_service.
Proof.
  split; try reflexivity.
  - vm_compute. lia.
  - vm_compute. lia.
  - split; [reflexivity|]. repeat constructor.
  - repeat constructor.
  - exists 0. repeat (split; [reflexivity|]). repeat constructor.
Qed.
Lemma p_made z : instance_of_schema m_schema (p_order_of z).
Proof. split; [unfold p_order_of, x_piece; x_made|unfold p_order_of; eauto]. Qed.
Lemma p_made_parcel : instance_of_schema m_schema p_parcel.
Proof. split; [unfold p_parcel, x_piece; x_made|unfold p_parcel; eauto]. Qed.
Lemma p_functions : functions_answer m_schema p_fn.
Proof.
  intros f s b. unfold p_fn. repeat match goal with |- context [match ?x with _ => _ end] => destruct x end; first [exact I | exact p_made_parcel].
Qed.
Lemma p_by_name : calls_by_name p_service.
Proof. split; [reflexivity|repeat constructor]. Qed.
Definition p_own (c : string) : Prop := In c (gs_complex m_schema).
Lemma p_rt_classes : good_classes p_P p_own.
Proof. intros c I. unfold p_own in I. cbn in I. destruct I as [<-|[<-|[<-|[]]]]; [x_rt p_order|x_rt p_item|x_rt p_maker]. Qed.
Lemma p_piece_typed n k : leaf_ok ex_oracle (SString "String" no_sfacets) (VStr n) -> k = VNone \/ k = VStr "B" -> rt_typed ex_oracle p_env (TComplex "Item") (x_piece n k).
Proof.
  intros L K. unfold x_piece. x_obj idtac.
  - apply rf_val; [reflexivity|discriminate|discriminate|]. now apply rt_leaf.
  - destruct K as [-> | ->]; [now apply rf_none|]. apply rf_val; [reflexivity|discriminate|discriminate|]. x_leaf.
Qed.
Ltac p_pieces := repeat first [apply Forall_nil | apply Forall_cons; [right; split; [discriminate|]; split; [discriminate|]; apply p_piece_typed; [|auto];
      split; [discriminate|]; split; [discriminate|]; eexists; split; [vm_compute; reflexivity|]; split; [discriminate|]; split; [reflexivity|]; split; vm_compute; reflexivity|]].
Lemma p_typed z : z = 7%Z \/ z = 13%Z -> rt_typed ex_oracle p_env (TComplex "Order") (p_order_of z).
Proof.
  intros Z. unfold p_order_of. x_obj idtac.
  - apply rf_val; [reflexivity|discriminate|discriminate|]. destruct Z as [-> | ->]; x_leaf.
  - apply rf_list; [reflexivity|intros m [= <-]; cbn; lia|discriminate|]. p_pieces.
  - now apply rf_none.
Qed.
Lemma p_parcel_typed : rt_typed ex_oracle p_env (TComplex "Maker") p_parcel.
Proof.
  unfold p_parcel. x_obj idtac.
  - now apply rf_nil.
  - apply rf_list; [reflexivity|intros m [= <-]; cbn; lia|intros m [= <-]; cbn; lia|]. p_pieces.
Qed.
Lemma p_callable a z : z = 7%Z \/ z = 13%Z -> callable p_P p_own p_D a (fun _ => None) "place" p_place "place" "order" (p_order_of z) VNone.
Proof.
  intros Hz. split.
  - exists [], [p_ask]. repeat split. intros b [].
  - reflexivity.
  - left. reflexivity.
  - repeat split; discriminate.
  - exists "Order". split; [right; exists "order", (mkSel (TComplex "Order") None); repeat split|].
    split; [cbn; tauto|]. split; [exists p_order, x_info; split; [reflexivity|]; split; [reflexivity|cbn; tauto]|]. split; [now apply p_typed|vm_compute; lia].
  - now left.
  - intros x Hx. destruct Hz as [-> | ->]; vm_compute in Hx; injection Hx as <-;
      (split; [eexists; split; [vm_compute; reflexivity|apply ly_same]|]; repeat constructor).
  - assert (X : (m_action p_place <> "" /\ ~ char_in quote_c (m_action p_place) /\ first_with (fun m' => m_action m' = m_action p_place) (sv_methods p_service) p_place) /\ ~ double_backslash (m_action p_place)).
    { split; [|intros (l1 & l2 & H); assert (I : In bslash (to_l "urn:place")) by (unfold p_place in H; cbn [m_action] in H; rewrite H; apply in_elt); revert I; cbn; intuition discriminate]. split; [discriminate|]. split; [vm_compute; intuition discriminate|]. exists [], [p_ask]. repeat split. intros b []. }
    destruct a; exact X.
Qed.
Lemma p_returnable : returnable p_P p_own p_D p_place p_parcel VNone.
Proof.
  split.
  - exists "Maker", "maker". split; [split; [reflexivity|eexists; split; reflexivity]|]. split; [repeat split; discriminate|].
    split; [cbn; tauto|]. split; [exists p_maker, x_info; split; [reflexivity|]; split; [reflexivity|cbn; tauto]|]. split; [exact p_parcel_typed|vm_compute; lia].
  - now left.
  - intros tag x [= <-] Hx. vm_compute in Hx. injection Hx as <-. eexists; split; [vm_compute; reflexivity|apply ly_same].
Qed.

(** The calls of a generated client: of the service itself, and of a generated server. *)
Definition p_import (server : bool) : res wmodule :=
  import_wsdl insertion_sort 20 g_rt 20 14 ex_oracle (lib_env 10) i_md5 v_checked server p_doc (wire (xd_root p_doc)).
Definition p_found (server : bool) : option (module * gservice) :=
  match p_import server with
  | Ok w => match wl_schemas w, assoc "ShopPort_SERVICE" (st_names (wl_state w)) with [m], Some (WvService g) => Some (m, g) | _, _ => None end
  | Err _ => None
  end.
Definition p_call (generated : bool) (a : hosting) (z : Z) : option (list string * res outcome) :=
  match p_found false, p_found true with
  | Some (mc, gc), Some (ms, gs) =>
      Some (stub_call (with_module p_P 20 10 mc) (as_service gc [0] (fun _ => "") p_fn)
        (if generated then post_through a (with_module p_P 20 10 ms) (with_service p_D (as_service gs [0] (fun _ => "") p_fn)) (fun _ => None) else post_through a p_P p_D (fun _ => None))
        [] "place" (p_order_of z) VNone)
  | _, _ => None
  end.
