(** The echo service with headers and a validator made from its schema. *)
From Coq Require Import String Ascii List ZArith NArith Bool Lia QArith.
From Verif Require Import PyBase PyRe Xml PyVal XsdSimple XsdComplex XsdSchema PyHttp Soap Dispatch Client ExEnv ExSoap LibClasses Py2Xsd Py2Wsdl Serve
  SpecXsd SpecSchema SpecParse SpecSimple SpecDate SpecRound SpecTotal SpecSoap SpecHttp SpecDispatch SpecClient SpecValid SpecGiven SpecRead SpecServe SpecContract SpecContract2
  PfBase PfLeaf PfClient3 PfValid2 PfValid3 PfValid4 ExValid ExRead PfContract ExContract.
Import ListNotations.
Open Scope nat_scope.
Open Scope string_scope.
Open Scope list_scope.

Definition h_service : full_service (list string) := mkFull call_service "Echo" "urn:echo" "http://example.org/" (fun _ => "document").
Definition h_fault : node := soap_envelope (envelope_ns V12) [] [fault12 (envelope_ns V12) "ns0:Sender" "DocumentInvalid: no such element" None].
Definition h_P : platform :=
  mkPlat r_oracle call_env 10 c_graph 10
    (fun s => match find (fun d => String.eqb (show d) s) (h_fault :: call_docs) with Some d => Ok d | None => Err (Exn EXMLSyntaxError "") end)
    show c_check (fun _ => Ok tt) (fun _ => "").
Definition h_D (strict : bool) : dispatcher (list string) := mkDisp call_service [] [] "<wsdl/>" [] strict.

Lemma h_contract strict : contract h_P v_mean c_decls (fun _ => c_schema) h_service c_schema (h_D strict).
Proof.
  split.
  - exists echo_U, 10, 6. split; reflexivity.
  - exists 0. split; reflexivity.
  - exact c_describable.
  - exact c_schema_ok.
  - discriminate.
  - exists 0, 0, (fun _ => ""), root_validator, (Some "<wsdl/>"), (Some []), strict. split; [apply root_accepts|]. destruct strict; vm_compute; reflexivity.
Qed.
Lemma h_token s : s <> "" -> xml_text_ok s = true -> message h_P call_classes "Token" (token_of s).
Proof.
  intros H1 H2. split; [cbn; auto|]. split; [do 2 eexists; split; [reflexivity|]; split; [reflexivity|cbn; auto]|]. split; [|cbn; lia].
  eapply rt_obj; [reflexivity|reflexivity|]. intros f v [<-|[]]. cbn [f_name s_elem assoc]. rewrite String.eqb_refl. intros [= <-].
  apply rf_val; try discriminate; auto. now apply c_str.
Qed.
Lemma h_lxml : fails_as_lxml h_P.
Proof. intros x. cbn [pf_valid h_P]. unfold c_check. destruct (str_in _ _); [now left|right]. eexists. split; [|reflexivity]. eexists. now left. Qed.
Lemma h_foreign : rejects_foreign h_P "urn:echo".
Proof.
  intros x H. cbn [pf_valid h_P]. unfold c_check.
  assert (E : root_names (xsd_document r_oracle call_env c_decls c_schema) = [clark "urn:echo" "echoRequest"; clark "urn:echo" "echoResponse"; clark "urn:echo" "echoRequest"; clark "urn:echo" "echoResponse"]) by (vm_compute; reflexivity).
  rewrite E. destruct (str_in (el_tag x) _) eqn:I; [exfalso|eauto]. unfold str_in in I. apply existsb_exists in I as (t & I & Q). apply String.eqb_eq in Q.
  cbn [In] in I. destruct I as [<-|[<-|[<-|[<-|[]]]]]; rewrite Q in *; eapply H; eauto.
Qed.
Lemma h_sent strict a :
  first_with (fun m => m_op m = "Echo") (sv_methods (d_service (h_D strict))) call_method_ /\ m_fn call_method_ = Some "echo" /\
  m_in call_method_ = IOName "echoRequest" /\ message_tag "echoRequest" /\ input_type h_P (h_D strict) call_method_ (TComplex "EchoRequest") /\
  element_of (pf_E h_P) c_schema "echoRequest" "EchoRequest" /\ proper h_P call_classes "EchoRequest" (request_of "hi") /\
  header_for h_P call_classes (server_header (d_service (h_D strict)) call_method_) (token_of "you") /\ plain_header h_P (token_of "you") /\
  (forall x, envelope_response (pf_n h_P) (pf_O h_P) (pf_E h_P) V12 "echoRequest" (request_of "hi") (token_of "you") = Ok x -> transmits h_P x /\ 2 <= length (blocks x)) /\
  routable a (d_service (h_D strict)) (fun _ => None) call_method_ "echoRequest".
Proof.
  split; [exists [], []; repeat split; intros b []|]. split; [reflexivity|]. split; [reflexivity|]. split; [repeat split; discriminate|].
  split; [right; exists "echoRequest", (mkSel (TComplex "EchoRequest") None); repeat split|].
  split; [split; [eexists; split; [now left|reflexivity]|do 2 eexists; repeat split]|].
  split; [apply (c_calls a)|]. split; [right; exists "Token"; split; [apply h_token; reflexivity || discriminate|left; reflexivity]|].
  split; [right; do 4 eexists; split; [reflexivity|]; split; [reflexivity|]; repeat constructor; discriminate|]. split.
  - intros x Hx. vm_compute in Hx. injection Hx as <-. split; [eexists; split; [vm_compute; reflexivity|apply ly_same]|cbn; auto].
  - cbn. split; [split; [discriminate|split]|].
    + unfold char_in. cbn. intuition discriminate.
    + exists [], []. repeat split. intros b [].
    + intros (l1 & l2 & H). assert (I : In bslash (to_l "urn:echo#echo")) by (cbn [m_action call_method_] in H; rewrite H; apply in_elt). revert I. cbn. intuition discriminate.
Qed.
Lemma h_returnable strict : returnable h_P call_classes (h_D strict) call_method_ (response_of "hi") (token_of "me").
Proof.
  split.
  - exists "EchoResponse", "echoResponse". split; [split; [reflexivity|eexists; split; reflexivity]|]. split; [repeat split; discriminate|].
    refine (proj1 (c_proper "EchoResponse" _ _ "hi" _ eq_refl eq_refl eq_refl eq_refl _ _ _)); try reflexivity; try discriminate; cbn; auto.
  - right. exists "Token". split; [apply h_token; reflexivity || discriminate|left; reflexivity].
  - intros tag x [= <-] Hx. vm_compute in Hx. injection Hx as <-. eexists; split; [vm_compute; reflexivity|apply ly_same].
Qed.
