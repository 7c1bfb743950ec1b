(** A service with WS-Addressing headers. *)
From Coq Require Import String Ascii List ZArith Bool Lia.
From Verif Require Import PyBase Xml PyVal XsdSimple XsdComplex XsdSchema PyHttp Soap Dispatch Client Wsa
  SpecParse SpecRender SpecRound SpecSimple SpecSoap SpecDispatch SpecHttp SpecClient SpecWsa PfBase PfSoap PfLeaf PfHttp PfClient PfClient3 PfWsa ExEnv ExSoap.
Import ListNotations.
Open Scope nat_scope.
Open Scope string_scope.
Open Scope list_scope.

Definition wsa_U (c : string) : option classdef := match assoc c wsa_classes with Some d => Some d | None => echo_U c end.
Definition wsa_env : env := soap_env wsa_U 10.
Definition wsa_Q (c : string) : Prop := In c ["EchoRequest"; "EchoResponse"; "wsa.Header"; "wsa.ReplyTo"].
Lemma wsa_has : has_wsa wsa_env.
Proof. intros c d [[= <- <-] | [[= <- <-] | []]]; reflexivity. Qed.
Definition wsa_request : pyval :=
  VObj "wsa.Header" None [("Action", VStr "urn:echo#echo"); ("MessageID", VStr "uuid:1"); ("To", VStr "urn:server");
    ("ReplyTo", VObj "wsa.ReplyTo" None [("Address", VStr anonymous)]); ("RelatesTo", VNone)].
Definition wsa_handler : handler (list string) := fun s body =>
  match construct ex_oracle wsa_env "wsa.Header" [], body with
  | Ok reply, VObj _ _ [("value", VStr v)] =>
      match fill_header ex_oracle wsa_env "uuid:2" reply (rq_header (snd s)) with
      | (h, Ok _) => ((v :: fst s, snd s), Ok (RResp (new_response (PVal (response_of v)) h 200 None [])))
      | (_, Err e) => (s, Err e)
      end
  | _, _ => (s, Err ValueError)
  end.
Definition wsa_method : method :=
  mkMethod "Echo" "urn:echo#echo" (IOName "echoRequest") (IOName "echoResponse") (Some "wsa.Header") (Some "wsa.Header") (Some "echo").
Definition wsa_service : service (list string) := mkService V12 [0] [wsa_method] None (fun _ => wsa_handler).
Definition wsa_D : dispatcher (list string) := mkDisp wsa_service [] [] "<wsdl/>" [] true.
Definition wsa_doc (tag s : string) (blocks : list node) : node :=
  soap_envelope (envelope_ns V12) [Elem (clark (envelope_ns V12) "Header") [] blocks] [Elem (clark "urn:echo" tag) [] [Elem (clark "urn:echo" "value") [] [Text s]]].
Definition wsa_docs : list node :=
  [wsa_doc "echoRequest" "hi" [block "Action" "urn:echo#echo"; block "MessageID" "uuid:1"; block "To" "urn:server"; reply_block anonymous];
   wsa_doc "echoResponse" "hi" [block "Action" "urn:echo#echoResponse"; block "MessageID" "uuid:2"; block "To" anonymous; block "RelatesTo" "uuid:1"]].
Definition wsa_P : platform :=
  mkPlat ex_oracle wsa_env 10 echo_G 10
    (fun s => match find (fun d => String.eqb (show d) s) wsa_docs with Some d => Ok d | None => Err (Exn EXMLSyntaxError "") end)
    show (fun _ => Ok tt) (fun _ => Ok tt) (fun _ => "").
Lemma wsa_platform : soap_platform wsa_P.
Proof. exists wsa_U, 10, 6. split; reflexivity. Qed.
Ltac w_flat := cbn [cd_fields cd_wsa_header cd_reply_to wsa_fields].
Lemma wsa_good : good_classes wsa_P wsa_Q.
Proof.
  intros c H. unfold wsa_Q in H. cbn in H. destruct H as [<-|[<-|[<-|[<-|[]]]]].
  all: match goal with |- context [e_cls _ ?c] => let d := eval cbn in (e_cls wsa_env c) in match d with Some ?d' => exists d', (cd_fields d') end end.
  all: split; [reflexivity|]; split; [discriminate|]; split; [discriminate|]; split; [now left|]; split; [cbn; intuition discriminate|];
    split; [cbn; repeat (constructor; [cbn; intuition discriminate|]); constructor|]; split; [eexists; vm_compute; reflexivity|].
  all: split; [intros f Hf; cbn in Hf; decompose [or] Hf; subst; try contradiction; (split; [reflexivity|]); (split; [cbn; intuition discriminate|]); intros c Hc; try discriminate Hc; injection Hc as <-; cbn; tauto|].
  all: split; [|repeat (constructor; [repeat constructor|]); try constructor].
  all: try (cbn [cd_fields]; match goal with |- flat_fields _ ?c ?l => eapply (fl_class _ c _ (map (fun f => [f]) l)); [reflexivity|cbn; repeat constructor] end).
  all: cbn; unfold confused; cbn; intuition discriminate.
Qed.
Example wsa_run : forall a, exists b h, stub_call wsa_P wsa_service (post_through a wsa_P wsa_D (fun _ => None)) [] "Echo" (request_of "hi") wsa_request = (["hi"], Ok (CReturned b h)) /\
  erase b = response_of "hi" /\ attribute h "RelatesTo" (VStr "uuid:1") /\ attribute h "Action" (VStr "urn:echo#echoResponse").
Proof. intros a. destruct a; eexists; eexists; (split; [vm_compute; reflexivity|repeat split; vm_compute; reflexivity]). Qed.
Lemma wsa_one c name s d : e_cls wsa_env c = Some d -> cd_fields d = [s_elem name string_type 1%Z false None] -> s <> "" -> xml_text_ok s = true ->
  rt_typed ex_oracle wsa_env (TComplex c) (VObj c None [(name, VStr s)]).
Proof.
  intros Hd Hf H1 H2. apply (rt_obj _ _ _ d); auto; [now rewrite Hf|]. rewrite Hf. intros f v [<-|[]]. cbn [f_name s_elem assoc].
  rewrite String.eqb_refl. intros [= <-]. apply rf_val; try discriminate; auto. now apply wsa_string.
Qed.
Lemma wsa_message_of c name s d si : wsa_Q c -> e_cls wsa_env c = Some d -> cd_fields d = [s_elem name string_type 1%Z false None] ->
  cd_schema d = Some si -> In "ComplexType" (cd_mro d) -> s <> "" -> xml_text_ok s = true -> message wsa_P wsa_Q c (VObj c None [(name, VStr s)]).
Proof.
  intros Hc Hd Hf Hs Hm H1 H2. split; [exact Hc|]. split; [exists d, si; repeat split; auto|]. split; [eapply wsa_one; eauto|]. cbn. lia.
Qed.
Lemma wsa_header_message : message wsa_P wsa_Q "wsa.Header" wsa_request.
Proof.
  split; [cbn; tauto|]. split; [exists cd_wsa_header, wsa_si; repeat split; cbn; auto|]. split; [|cbn; lia].
  apply (rt_obj _ _ _ cd_wsa_header); [reflexivity|reflexivity|]. intros g v Hg Hv. cbn in Hg.
  destruct Hg as [<- | [<- | [<- | [<- | [<- | []]]]]]; cbn in Hv; injection Hv as <-; try (apply rf_val; [reflexivity|discriminate|discriminate|]; apply wsa_string; split; [discriminate|reflexivity]).
  - apply rf_val; [reflexivity|discriminate|discriminate|]. apply (rt_obj _ _ _ cd_reply_to); [reflexivity|reflexivity|]. intros g v Hg Hv. cbn in Hg.
    destruct Hg as [<- | []]; cbn in Hv; injection Hv as <-. apply rf_val; [reflexivity|discriminate|discriminate|]. apply wsa_string. split; [discriminate|reflexivity].
  - now apply rf_none.
Qed.
Lemma wsa_callable a : callable wsa_P wsa_Q wsa_D a (fun _ => None) "Echo" wsa_method "echo" "echoRequest" (request_of "hi") wsa_request.
Proof.
  split.
  - exists [], []. repeat split. intros b [].
  - reflexivity.
  - left. reflexivity.
  - repeat split; discriminate.
  - exists "EchoRequest". split; [right; exists "echoRequest", (mkSel (TComplex "EchoRequest") None); repeat split|]. eapply wsa_message_of; try reflexivity; try discriminate; cbn; auto.
  - right. exists "wsa.Header". split; [exact wsa_header_message|left; reflexivity].
  - intros x Hx. vm_compute in Hx; injection Hx as <-; (split; [eexists; split; [vm_compute; reflexivity|apply ly_same]|]; repeat constructor).
  - cbn. split; [split; [discriminate|split]|].
    + unfold char_in. cbn. intuition discriminate.
    + exists [], []. repeat split. intros b [].
    + intros (l1 & l2 & H). assert (I : In bslash (to_l "urn:echo#echo")) by (cbn [m_action wsa_method] in H; rewrite H; apply in_elt). revert I. cbn. intuition discriminate.
Qed.
Lemma wsa_response : message wsa_P wsa_Q "EchoResponse" (response_of "hi").
Proof. eapply wsa_message_of; try reflexivity; try discriminate; cbn; auto. Qed.
