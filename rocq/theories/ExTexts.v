(** Examples for XML text with schemas, and for documents. *)
From Coq Require Import String Ascii List ZArith Bool Lia.
From Verif Require Import PyBase PyRe Xml PyVal XsdSimple XsdComplex XsdMeta PyHttp Soap Dispatch Client LibClasses Py2Xsd Texts
  SpecXsd SpecParse SpecRound SpecTotal SpecDispatch SpecClient SpecValid SpecGiven SpecRead SpecMeta SpecServe SpecContract SpecTexts
  PfBase PfRoundEx PfClient3 ExEnv ExSoap ExValid ExRead ExContract PfTexts PfMeta2 PfMeta3.
Import ListNotations.
Open Scope nat_scope.
Open Scope string_scope.
Open Scope list_scope.

(** ** Text with a schema: the classes of the echo service *)
Definition t_doc : xdocument := xsd_document r_oracle call_env c_decls c_schema.
Definition t_schema (d : xdocument) : res (node -> res unit) := root_validator (fun _ => Err ValueError) d.
Definition t_check : node -> res unit := fun x => if str_in (el_tag x) (root_names t_doc) then Ok tt else Err (Exn EDocumentInvalid "no such element").
Definition t_fromstring (s : string) : res node :=
  match find (fun d => String.eqb (show d) s) [c_xml "echoRequest" "hi"; c_xml "other" "hi"] with Some d => Ok d | None => Err (Exn EXMLSyntaxError "") end.
Lemma t_generated : generate_xsd 10 r_oracle (lib_env 0) call_env c_decls c_schema = Ok t_doc.
Proof. exact (PfXsd2.generate_ok r_oracle 0 call_env c_decls 2 c_schema c_describable). Qed.
Lemma t_accepts : accepts_all v_mean t_doc t_check.
Proof. exact (root_accepts v_mean (fun _ => Err ValueError) t_doc t_check eq_refl). Qed.
(** A validator that accepts one element. *)
Definition t_one : node -> res unit := fun x =>
  match x with
  | Elem t [] [Elem u [] [Text s]] =>
      if String.eqb t (clark "urn:echo" "echoRequest") && String.eqb u (clark "urn:echo" "value") && String.eqb s "hi" then Ok tt else Err (Exn EDocumentInvalid "")
  | _ => Err (Exn EDocumentInvalid "")
  end.
Lemma t_only : accepts_only v_mean t_doc t_one.
Proof.
  intros x H. unfold t_one in H. destruct x as [t a k| | |]; try discriminate. destruct a; [|discriminate]. destruct k as [|[u b [|[| s | |] [|]]| | |] [|]]; try discriminate; destruct b; try discriminate.
  destruct (String.eqb t _) eqn:A; [|discriminate]. destruct (String.eqb u _) eqn:B; [|discriminate]. destruct (String.eqb s _) eqn:C; [|discriminate].
  apply String.eqb_eq in A as ->. apply String.eqb_eq in B as ->. apply String.eqb_eq in C as ->. exact c_valid.
Qed.
Lemma t_proper : proper c_P call_classes "EchoRequest" (request_of "hi").
Proof. apply (c_calls Wsgi). Qed.
Lemma t_written : xml_of 10 r_oracle call_env (request_of "hi") "echoRequest" (Some "urn:echo") (Some "qualified") = Ok (c_xml "echoRequest" "hi").
Proof. vm_compute. reflexivity. Qed.
Lemma t_survives x : xml_of 10 r_oracle call_env (request_of "hi") "echoRequest" (Some "urn:echo") (Some "qualified") = Ok x -> survives t_fromstring show x.
Proof. rewrite t_written. intros [= <-]. eexists. split; [vm_compute; reflexivity|apply ly_same]. Qed.

(** ** A document whose root is a leg of a flight *)
Definition d_leg : field := mkField "leg" KElement (TComplex "Leg") (Some "Stage") (Some 1%Z) ONone false VNone None.
Definition d_class : classdef := mkClass ["Trip"; "ComplexType"] CKPlain [ex_attr "id" t_str true; d_leg] ISequence None.
Definition d_env : env := mkEnv (fun c => if String.eqb c "Trip" then Some d_class else if String.eqb c "Leg" then Some cd_leg else None) 20.
Definition d_value : pyval := VObj "Leg" None [("origin", VStr "LHR"); ("seats", VInt 180)].
Definition d_trip : list (string * pyval) := [("id", VStr "T1"); ("leg", d_value)].
Definition d_xml : node := Elem "leg" [] [Elem "origin" [] [Text "LHR"]; Elem "seats" [] [Text "180"]].
Definition d_fromstring (s : string) : res node :=
  match find (fun d => String.eqb (show d) s) [d_xml; Elem "leg" [(xsi_nil, "true")] []; Elem "leg" [] [Elem "seats" [] [Text "many"]]] with Some d => Ok d | None => Err (Exn EXMLSyntaxError "") end.
Lemma d_root : root_of d_env "Trip" d_leg.
Proof. exists d_class, [ex_attr "id" t_str true], []. split; [reflexivity|]. split; [reflexivity|]. split; [reflexivity|]. repeat constructor. Qed.
Lemma d_classes : rt_classes ex_oracle d_env (fun c => c = "Leg").
Proof.
  intros c ->. exists cd_leg, [ex_elem "origin" t_str; ex_nil "seats" t_int]. repeat split; try discriminate; try reflexivity.
  - now left.
  - cbn. intuition discriminate.
  - repeat constructor; cbn; intuition discriminate.
  - eexists. vm_compute. reflexivity.
  - cbn in H. decompose [or] H; subst; try reflexivity; contradiction.
  - cbn in H. decompose [or] H; subst; try exact I; contradiction.
  - cbn in H. decompose [or] H; subst; cbn; try discriminate; contradiction.
  - apply (fl_class d_env "Leg" cd_leg [[_]; [_]]); [reflexivity|]. repeat constructor.
  - fop.
Qed.
Lemma d_typed : rt_typed ex_oracle d_env (TComplex "Leg") d_value.
Proof.
  apply (rt_obj _ _ _ cd_leg); [reflexivity|reflexivity|]. intros f v [<-|[<-|[]]]; intros [= <-]; (apply rf_val; [reflexivity|discriminate|discriminate|]); apply rt_leaf;
  (split; [discriminate|split; [discriminate|]]); eexists; (split; [vm_compute; reflexivity|]); (split; [discriminate|]); repeat split; vm_compute; reflexivity.
Qed.
Lemma d_survives x : xml_of 4 ex_oracle d_env d_value "leg" None None = Ok x -> survives d_fromstring show x.
Proof. intros H. vm_compute in H. injection H as <-. eexists. split; [vm_compute; reflexivity|apply ly_same]. Qed.
