(** The echo service with a validator made from its schema. *)
From Coq Require Import String Ascii List ZArith NArith Bool Lia QArith.
From Verif Require Import PyBase PyRe Xml PyVal XsdSimple XsdComplex XsdSchema PyHttp Soap Dispatch Client ExEnv ExSoap LibClasses Py2Xsd Py2Wsdl Serve
  SpecXsd SpecSchema SpecParse SpecSimple SpecDate SpecRound SpecTotal SpecSoap SpecHttp SpecDispatch SpecClient SpecValid SpecGiven SpecRead SpecServe SpecContract
  PfBase PfLeaf PfClient3 PfValid2 PfValid3 PfValid4 ExValid ExRead PfContract.
Import ListNotations.
Open Scope nat_scope.
Open Scope string_scope.
Open Scope list_scope.

(** A validator that looks at the root only: it is an element of the schema. *)
Definition root_names (doc : xdocument) : list string :=
  match assoc "targetNamespace" (el_attrs (xd_root doc)) with
  | Some ns => flat_map (fun y => match assoc "name" (el_attrs y) with Some n => [clark ns n] | None => [] end) (el_kids (xd_root doc))
  | None => []
  end.
Definition root_validator (r : string -> res xdocument) (doc : xdocument) : res (node -> res unit) :=
  Ok (fun x => if str_in (el_tag x) (root_names doc) then Ok tt else Err (Exn EDocumentInvalid "no such element")).
Lemma root_accepts mean : accepts_valid mean root_validator.
Proof.
  intros r doc check [= <-] x (ns & n & d & Hn & (l1 & l2 & Hk & (_ & Ha) & _) & Ht & _). cbv beta.
  assert (I : In (el_tag x) (root_names doc)).
  { unfold root_names. unfold own_namespace, SpecValid.root in Hn. rewrite Hn. unfold SpecValid.root in Hk. rewrite Hk. apply in_flat_map. exists d. split; [apply in_elt|]. rewrite Ha, Ht. now left. }
  now rewrite (PfRead3.str_in_true _ _ I).
Qed.

Definition c_elements : list (string * gelement) :=
  [("echoRequest", mkGel (TComplex "EchoRequest") true None); ("echoResponse", mkGel (TComplex "EchoResponse") true None)].
Definition c_schema : gschema := mkGs "urn:echo" "qualified" [] [] [] ["EchoRequest"; "EchoResponse"] c_elements.
Definition c_decls : decls := {| dc_class := fun _ _ => true; dc_use := dc_use v_decls; dc_re := dc_re v_decls |}.
Definition c_service : full_service (list string) := mkFull (mkService V12 [0] [echo_method] None (fun _ => echo_handler)) "Echo" "urn:echo" "http://example.org/" (fun _ => "document").
Definition c_graph : sgraph := fun _ =>
  mkSchema (Some "urn:echo") qualified [("echoRequest", mkSel (TComplex "EchoRequest") None); ("echoResponse", mkSel (TComplex "EchoResponse") None)] [] [] None.
Definition c_xml (tag s : string) : node := Elem (clark "urn:echo" tag) [] [Elem (clark "urn:echo" "value") [] [Text s]].
Definition c_docs : list node := map (fun p => soap_envelope (envelope_ns V12) [] [c_xml (fst p) (snd p)]) [("echoRequest", "hi"); ("echoRequest", ""); ("echoResponse", "hi"); ("other", "hi")].
Definition c_check : node -> res unit :=
  fun x => if str_in (el_tag x) (root_names (xsd_document r_oracle call_env c_decls c_schema)) then Ok tt else Err (Exn EDocumentInvalid "no such element").
Definition c_P : platform :=
  mkPlat r_oracle call_env 10 c_graph 10
    (fun s => match find (fun d => String.eqb (show d) s) c_docs with Some d => Ok d | None => Err (Exn EXMLSyntaxError "") end)
    show c_check (fun _ => Ok tt) (fun _ => "").
Definition c_D : dispatcher (list string) := mkDisp (fs_service c_service) [] [] "<wsdl/>" [] true.

Lemma c_describable : schema_describable r_oracle call_env c_decls c_schema.
Proof.
  split; [reflexivity|]. split; [now left|]. split; [constructor|]. split; [constructor|]. split; [constructor|]. split.
  - apply Forall_cons; [v_class|apply Forall_cons; [v_class|apply Forall_nil]].
  - apply Forall_cons; [|apply Forall_cons; [|apply Forall_nil]]; (split; [reflexivity|]; split; [discriminate|]); cbn [snd ge_class ge_type]; (split; [discriminate|reflexivity]).
Qed.
Lemma c_schema_ok : schema_ok v_mean call_env c_decls c_schema.
Proof.
  split; [discriminate|]. split; [split; repeat constructor; vm_compute; intuition discriminate|].
  assert (H1 : class_ok v_mean call_env c_decls c_schema "EchoRequest") by (eexists; split; [reflexivity|]; split; [discriminate|]; split; [intros si [= <-]; reflexivity|]; cbn [cd_fields]; apply Forall_cons; [split; [reflexivity|]; split; [now left|]; split; [v_occurs|r_type]|apply Forall_nil]).
  assert (H2 : class_ok v_mean call_env c_decls c_schema "EchoResponse") by (eexists; split; [reflexivity|]; split; [discriminate|]; split; [intros si [= <-]; reflexivity|]; cbn [cd_fields]; apply Forall_cons; [split; [reflexivity|]; split; [now left|]; split; [v_occurs|r_type]|apply Forall_nil]).
  split; [repeat (apply Forall_cons; [assumption|]); apply Forall_nil|].
  apply Forall_cons; [|apply Forall_cons; [|apply Forall_nil]]; cbn [snd ge_type ge_class]; intros c [= <-]; cbn; auto.
Qed.
Lemma c_schema_readable : schema_readable r_oracle call_env c_decls c_schema.
Proof.
  split; [discriminate|]. split; [cbn; intuition discriminate|].
  assert (H1 : class_readable r_oracle call_env c_decls "EchoRequest") by r_readable.
  assert (H2 : class_readable r_oracle call_env c_decls "EchoResponse") by r_readable.
  split; repeat (apply Forall_cons; [first [assumption | intros c [= <-]; assumption]|]); apply Forall_nil.
Qed.
Lemma c_contract : contract c_P v_mean c_decls (fun _ => c_schema) c_service c_schema c_D.
Proof.
  split.
  - exists echo_U, 10, 6. split; reflexivity.
  - exists 0. split; reflexivity.
  - exact c_describable.
  - exact c_schema_ok.
  - discriminate.
  - exists 0, 0, (fun _ => ""), root_validator, (Some "<wsdl/>"), (Some []), true. split; [apply root_accepts|]. vm_compute. reflexivity.
Qed.

Lemma c_good : good_classes c_P call_classes.
Proof.
  intros c H. unfold call_classes in H. cbn in H. destruct H as [<-|[<-|[<-|[]]]].
  all: match goal with |- context [e_cls _ ?c] => let d := eval cbn in (e_cls call_env c) in match d with Some ?d' => exists d', (cd_fields d') end end.
  all: split; [reflexivity|]; repeat split; try discriminate.
  all: try (now left).
  all: try (match goal with |- flat_fields _ ?c (cd_fields ?d) => cbn [cd_fields]; apply (fl_class _ c d [[_]]); [reflexivity|cbn [cd_fields]; repeat constructor] end).
  all: try (cbn; intuition discriminate).
  all: try (repeat constructor; cbn; intuition discriminate).
  all: try (eexists; vm_compute; reflexivity).
  all: try (cbn in H; decompose [or] H; subst; try exact I; try reflexivity; try discriminate; contradiction).
  all: try (cbn in H; decompose [or] H; subst; cbn; try exact I; try reflexivity; try discriminate; contradiction).
Qed.
Lemma c_str s : s <> "" -> xml_text_ok s = true -> rt_typed r_oracle call_env string_type (VStr s).
Proof.
  intros H1 H2. constructor. apply everyday_leaf. constructor; auto.
  - split; [|split; [|split; [|split]]]; cbn; try easy.
  - repeat split; cbn; easy.
  - reflexivity.
Qed.
Lemma c_proper c d si s : call_classes c -> e_cls call_env c = Some d -> cd_fields d = [s_elem "value" string_type 1%Z false None] -> cd_ind d = ISequence ->
  cd_schema d = Some si -> In "ComplexType" (cd_mro d) -> s <> "" -> xml_text_ok s = true -> proper c_P call_classes c (VObj c None [("value", VStr s)]).
Proof.
  intros Hc Hd Hf Hi Hs Hm H1 H2. split; [split; [exact Hc|]; split; [exists d, si; repeat split; auto|]; split|].
  - apply (rt_obj _ _ _ d); auto; [now rewrite Hf|]. rewrite Hf. intros f v [<-|[]]. cbn [f_name s_elem assoc].
    rewrite String.eqb_refl. intros [= <-]. apply rf_val; try discriminate; auto. now apply c_str.
  - cbn. lia.
  - apply (cp_object _ _ c d); [exact Hd|rewrite Hi; discriminate|]. rewrite Hf. intros f [<-|[]]. exists (VStr s). split; [reflexivity|].
    apply gv_value; try discriminate; [reflexivity|]. apply cp_simple; [reflexivity|]. intros N. now destruct N.
Qed.
Lemma c_action : first_with (fun m => m_action m = "urn:echo#echo") [echo_method] echo_method.
Proof. exists [], []. repeat split. intros b []. Qed.
Lemma c_calls a :
  first_with (fun m => m_op m = "Echo") (sv_methods (d_service c_D)) echo_method /\ m_fn echo_method = Some "echo" /\
  m_in echo_method = IOName "echoRequest" /\ message_tag "echoRequest" /\ input_type c_P c_D echo_method (TComplex "EchoRequest") /\
  element_of (pf_E c_P) c_schema "echoRequest" "EchoRequest" /\ proper c_P call_classes "EchoRequest" (request_of "hi") /\
  (forall x, envelope_response (pf_n c_P) (pf_O c_P) (pf_E c_P) V12 "echoRequest" (request_of "hi") VNone = Ok x -> transmits c_P x) /\
  routable a (d_service c_D) (fun _ => None) echo_method "echoRequest".
Proof.
  split; [exists [], []; repeat split; intros b []|]. split; [reflexivity|]. split; [reflexivity|]. split; [repeat split; discriminate|].
  split; [right; exists "echoRequest", (mkSel (TComplex "EchoRequest") None); repeat split|].
  split; [split; [eexists; split; [now left|reflexivity]|do 2 eexists; repeat split]|].
  split; [eapply c_proper; try reflexivity; try discriminate; cbn; auto|]. split.
  - intros x Hx. vm_compute in Hx. injection Hx as <-. eexists; split; [vm_compute; reflexivity|apply ly_same].
  - cbn. split; [split; [discriminate|split]|].
    + unfold char_in. cbn. intuition discriminate.
    + exact c_action.
    + intros (l1 & l2 & H). assert (I : In bslash (to_l "urn:echo#echo")) by (cbn [m_action echo_method] in H; rewrite H; apply in_elt). revert I. cbn. intuition discriminate.
Qed.
Definition c_request (tag s : string) : request :=
  new_request (echo_environ [("REQUEST_METHOD", "POST"); ("CONTENT_TYPE", "application/soap+xml; action=""urn:echo#echo""")]) (show (soap_envelope (envelope_ns V12) [] [c_xml tag s])).
Lemma c_valid : valid v_mean (xsd_document r_oracle call_env c_decls c_schema) (c_xml "echoRequest" "hi").
Proof.
  refine (document_valid _ _ c_decls c_schema v_mean c_describable c_schema_ok 8 "EchoRequest" "echoRequest" _ (request_of "hi") _ (or_introl eq_refl) eq_refl eq_refl _ _).
  - apply (c_calls Wsgi).
  - vm_compute. reflexivity.
Qed.
Lemma c_accepts :
  request_method (c_request "echoRequest" "hi") "POST" /\ carries c_P c_D (c_request "echoRequest" "hi") VNone (c_xml "echoRequest" "hi") /\
  valid v_mean (xsd_document r_oracle call_env c_decls c_schema) (c_xml "echoRequest" "hi") /\
  spelled call_env c_schema (TComplex "EchoRequest") (c_xml "echoRequest" "hi") /\ height (c_xml "echoRequest" "hi") < pf_n c_P /\
  (exists act, has_action c_D (c_request "echoRequest" "hi") act /\ first_with (fun m => m_action m = act) (sv_methods (d_service c_D)) echo_method).
Proof.
  split; [reflexivity|]. split; [do 3 eexists; split; [vm_compute; reflexivity|]; split; [vm_compute; reflexivity|]; split; [vm_compute; reflexivity|]; split; [vm_compute; reflexivity|]; split; [discriminate|vm_compute; reflexivity]|].
  split; [apply c_valid|]. split; [|split].
  - eapply sl_object; [reflexivity|]. intros f y [<-|[]] Hy. vm_compute in Hy. destruct Hy as [<-|[]]. apply sl_text. discriminate.
  - vm_compute. repeat constructor.
  - exists "urn:echo#echo". split; [split; [vm_compute; reflexivity|discriminate]|exact c_action].
Qed.
