(** WSDL documents for the theorems about generated services. *)
From Coq Require Import String Ascii List ZArith NArith Bool.
From Verif Require Import PyBase PfBase PyRe Xml PyVal XsdSimple XsdComplex ExEnv LibClasses Py2Xsd SpecXsd XsdMeta Dispatch Soap Py2Wsdl Xsd2Py PyLoad SpecGenCode ExGenCode
  PyUrl Wsdl2Py PyService SpecUrl SpecService.
Import ListNotations.
Open Scope nat_scope.
Open Scope string_scope.
Open Scope list_scope.

Definition wel (t : string) (attrs : list (string * string)) (kids : list node) : node := Elem (clark ns_wsdl t) attrs kids.
Definition sel (t : string) (attrs : list (string * string)) (kids : list node) : node := Elem (clark ns_wsdl_soap t) attrs kids.

Definition v_part (name element : string) : node := wel "part" [("name", name); ("element", element)] [].
Definition v_message (name : string) (parts : list node) : node := wel "message" [("name", name)] parts.
Definition v_abstract (name i : string) (o : option string) : node :=
  wel "operation" [("name", name)]
    (wel "input" [("message", i)] [] :: match o with Some o => [wel "output" [("message", o)] []] | None => [] end).
Definition v_body : node := sel "body" [("use", "literal")] [].
Definition v_operation (name : string) (attrs : list (string * string)) (headers : list node) : node :=
  wel "operation" [("name", name)]
    [sel "operation" attrs []; wel "input" [] (v_body :: headers); wel "output" [] [v_body]].
Definition v_binding (name type style transport : string) (ops : list node) : node :=
  wel "binding" [("name", name); ("type", type)] (sel "binding" [("transport", transport); ("style", style)] [] :: ops).
Definition v_port (name binding location : string) : node :=
  wel "port" [("name", name); ("binding", binding)] [sel "address" [("location", location)] []].
Definition v_types : node :=
  wel "types" []
    [e_schema [e_type "item" [e_sequence [e_element "tag" [("type", "xs:string")]]];
               e_element "order" [("type", "sns:item")]; e_element "receipt" [("type", "sns:item")]; e_element "token" [("type", "xs:string")]]].
Definition v_definitions (kids : list node) : node :=
  wel "definitions" [("name", "Shop"); ("targetNamespace", "urn:shopping")] (v_types :: kids).

(** A service with two ports, one of them not bound to SOAP over HTTP. *)
Definition v_kids (ops abstract : list node) : list node :=
  [v_message "orderIn" [v_part "body" "sns:order"]; v_message "orderOut" [v_part "body" "sns:receipt"];
   wel "portType" [("name", "Shopping")] abstract;
   v_binding "ShopMail" "tns:Shopping" "document" "http://example.org/smtp" [];
   v_binding "ShopBinding" "tns:Shopping" "document" soap_http ops;
   wel "service" [("name", "Shop")] [v_port "ShopPort" "tns:ShopBinding" "https://example.org:8080/shop/v1?k=1"; v_port "MailPort" "tns:ShopMail" "mailto:x"]].
Definition v_shop : node := v_definitions
  (v_kids [v_operation "place" [("soapAction", "urn:place")] []; v_operation "ask" [("soapAction", "urn:ask"); ("style", "rpc")] []]
     [v_abstract "place" "tns:orderIn" (Some "tns:orderOut"); v_abstract "ask" "tns:orderIn" (Some "tns:orderOut")]).

Definition v_md5 (s : string) : string := if String.eqb s "urn:shop" then "0a1b2" else "00000".
Definition v_checked (s : string) : bool := true.
Definition v_code (server : bool) (doc : node) : res (list wstmt) := code_from_wsdl 14 ex_oracle (lib_env 10) v_md5 v_checked server doc.
(** The state after the statements for the schemas: three elements. *)
Definition v_elements : elements_of := [("order", 0); ("receipt", 1); ("token", 2)].
Definition v_state : wstate := mkWst (mkWorld [] []) [("Schema_0a1b2", WvSchema v_elements); ("Item", WvOther)].
Definition v_import (server : bool) (doc : node) : res wstate := c <- v_code server doc ;; exec_service g_rt 0 v_state c.

Definition v_d : pyval := Eval vm_compute in match parse_obj 14 ex_oracle (lib_env 10) (wn V11 "Definitions") v_shop with Ok x => x | Err _ => VNone end.
Lemma v_d_read : version_from_xml v_shop = V11 /\ parse_obj 14 ex_oracle (lib_env 10) (wn V11 "Definitions") v_shop = Ok v_d.
Proof. split; vm_compute; reflexivity. Qed.

Definition v_place : op_plan := mkOp "place" (Some "urn:place") (mkPp "body" "order") (Some (mkPp "body" "receipt")) None.
Definition v_ask : op_plan := mkOp "ask" (Some "urn:ask") (mkPp "body" "order") (Some (mkPp "body" "receipt")) (Some "rpc").
Definition v_address : address := mkAddr "https" "example.org:8080" "/shop/v1" (Some "k=1") None.
Definition v_plan_port : port_plan := mkPort "ShopPort" v_address "document" [v_place; v_ask].
Definition v_plan : list (list (option port_plan)) := [[Some v_plan_port; None]].

Ltac hs := apply has_of; vm_compute; reflexivity.
Ltac refer_to := split; [vm_compute; intuition discriminate | first [left; reflexivity | right; exists "tns"; reflexivity | right; exists "sns"; reflexivity]].
Ltac others := repeat (apply Forall_cons; [eexists; split; [hs|discriminate]|]); apply Forall_nil.
Ltac called n coll o := eexists true, (firstn n (items o coll)), (skipn (S n) (items o coll)); split; [hs|split; [hs|others]].

Definition v_bindings := items v_d "bindings".
Lemma v_states : states_document v_d "urn:shopping" ["urn:shop"] v_plan.
Proof.
  split; [hs|]. split. { eexists _, _, _. split; [hs|]. split; [hs|]. constructor; [hs|constructor]. }
  eexists _, _. split; [hs|]. constructor; [|constructor]. eexists _, _. split; [hs|].
  constructor; [|constructor; [|constructor]].
  - split; [hs|]. split. { eexists. split; hs. }
    exists (nth 1 v_bindings VNone). eexists _, _, _. split. { eexists _, "ShopBinding". split; [hs|]. split; [refer_to|called 1 "bindings" v_d]. }
    split; [hs|]. split; [hs|]. split; [hs|]. split; [hs|].
    constructor; [|constructor; [|constructor]].
    + split; [hs|]. split. { intros x [<-|[<-|[]]]; eexists; (split; [hs|right; eexists; hs]). }
      split. { eexists. split; [hs|]. split; hs. }
      exists (nth 0 (items (nth 0 (items v_d "portTypes") VNone) "operations") VNone). split.
      { eexists _, "Shopping", (nth 0 (items v_d "portTypes") VNone). split; [hs|]. split; [refer_to|]. split; [called 0 "portTypes" v_d|].
        split; [vm_compute; intuition discriminate|]. called 0 "operations" (nth 0 (items v_d "portTypes") VNone). }
      split.
      * exists (nth 0 (items v_d "messages") VNone). eexists _, _, _. split.
        { eexists _, _, "orderIn". split; [hs|]. split; [hs|]. split; [refer_to|called 0 "messages" v_d]. }
        split; [hs|]. split; [hs|]. split; [hs|]. split; [refer_to|discriminate].
      * exists (nth 1 (items v_d "messages") VNone). eexists _, _, _. split.
        { eexists _, _, "orderOut". split; [hs|]. split; [hs|]. split; [refer_to|called 1 "messages" v_d]. }
        split; [hs|]. split; [hs|]. split; [hs|]. split; [refer_to|discriminate].
    + split; [hs|]. split. { intros x [<-|[<-|[]]]; eexists; (split; [hs|right; eexists; hs]). }
      split. { eexists. split; [hs|]. split; hs. }
      exists (nth 1 (items (nth 0 (items v_d "portTypes") VNone) "operations") VNone). split.
      { eexists _, "Shopping", (nth 0 (items v_d "portTypes") VNone). split; [hs|]. split; [refer_to|]. split; [called 0 "portTypes" v_d|].
        split; [vm_compute; intuition discriminate|]. called 1 "operations" (nth 0 (items v_d "portTypes") VNone). }
      split.
      * exists (nth 0 (items v_d "messages") VNone). eexists _, _, _. split.
        { eexists _, _, "orderIn". split; [hs|]. split; [hs|]. split; [refer_to|called 0 "messages" v_d]. }
        split; [hs|]. split; [hs|]. split; [hs|]. split; [refer_to|discriminate].
      * exists (nth 1 (items v_d "messages") VNone). eexists _, _, _. split.
        { eexists _, _, "orderOut". split; [hs|]. split; [hs|]. split; [refer_to|called 1 "messages" v_d]. }
        split; [hs|]. split; [hs|]. split; [hs|]. split; [refer_to|discriminate].
  - exists (nth 0 v_bindings VNone). eexists. split. { eexists _, "ShopMail". split; [hs|]. split; [refer_to|called 0 "bindings" v_d]. }
    split; [hs|]. right. eexists. split; [hs|discriminate].
Qed.
Definition name_char (x : ascii) : bool :=
  (((65 <=? code x) && (code x <=? 90) || (97 <=? code x) && (code x <=? 122) || (code x =? 95))%N || ((48 <=? code x) && (code x <=? 57))%N)%bool.
Lemma name_chars c : forallb name_char (to_l c) = true -> forall x, holds c x -> letter x \/ digit x.
Proof.
  intros F x H. rewrite forallb_forall in F. specialize (F x H). unfold letter, digit. apply orb_true_iff in F. destruct F as [F|F].
  - left. apply orb_true_iff in F. destruct F as [F|F]; [apply orb_true_iff in F; destruct F as [F|F]|].
    + apply andb_true_iff in F. destruct F as [F1 F2]. apply N.leb_le in F1, F2. left. now split.
    + apply andb_true_iff in F. destruct F as [F1 F2]. apply N.leb_le in F1, F2. right. left. now split.
    + apply N.eqb_eq in F. right. now right.
  - right. apply andb_true_iff in F. destruct F as [F1 F2]. apply N.leb_le in F1, F2. now split.
Qed.
Lemma name_usable s c t : s = String c t -> letter c -> python_name s = s -> forallb name_char (to_l s) = true -> usable_name s.
Proof. intros E Lc P F. split; [eauto|]. split; [now apply name_chars|exact P]. Qed.
Lemma text_quotable s : forallb (fun x => negb (existsb (Ascii.eqb x) (to_l "'\"%string ++ [ascii_of_nat 10; ascii_of_nat 13]))) (to_l s) = true -> quotable s.
Proof.
  intros F. rewrite forallb_forall in F. split.
  - intros c Hc H. specialize (F c H). apply negb_true_iff in F. assert (X : existsb (Ascii.eqb c) (to_l "'\"%string ++ [ascii_of_nat 10; ascii_of_nat 13]) = true); [|congruence].
    apply existsb_exists. exists c. split; [apply in_or_app; now left|apply Ascii.eqb_refl].
  - split; intros H; specialize (F _ H); discriminate.
Qed.
Ltac name := eapply name_usable; [reflexivity|vm_compute; intuition discriminate|vm_compute; reflexivity..].
Ltac quote := apply text_quotable; vm_compute; reflexivity.
Ltac without_tac := let c := fresh in let Hc := fresh in let H := fresh in
  intros c Hc H; vm_compute in Hc, H; repeat (destruct Hc as [<-|Hc]; [intuition discriminate|]); contradiction.
Ltac every_char := let c := fresh in let H := fresh in
  intros c H; vm_compute in H; repeat (destruct H as [<-|H]; [vm_compute; intuition discriminate|]); contradiction.
Ltac address :=
  split; [eexists _, _; split; [reflexivity|vm_compute; intuition discriminate]|];
  split; [let c := fresh in let H := fresh in intros c H; left; revert c H; every_char|];
  split; [discriminate|]; split; [without_tac|]; split; [let c := fresh in let H := fresh in intros c H; vm_compute in H; repeat (destruct H as [<-|H]; [vm_compute; reflexivity|]); contradiction|];
  split; [right; eexists; reflexivity|]; split; [without_tac|];
  split; [let q := fresh in let E := fresh in intros q E; first [discriminate E | injection E as <-; without_tac]|];
  every_char.
Ltac nothing_empty := split; [discriminate|]; split; [discriminate|]; let s := fresh in let E := fresh in
  intros s E; apply (f_equal to_l) in E; rewrite to_l_app in E; apply (f_equal (@rev ascii)) in E; rewrite rev_app_distr in E; vm_compute in E; discriminate.
Lemma v_usable : Forall usable_port (soap_ports v_plan).
Proof.
  constructor; [|constructor]. split; [name|]. split; [address|]. split; [nothing_empty|]. split; [without_tac|].
  split; [|repeat constructor; cbn; intuition discriminate]. constructor; [|constructor; [|constructor]].
  - split; [name|]. split; [split; [name|quote]|]. split; [intros p [= <-]; split; [name|quote]|]. split; [intros a [= <-]; quote|discriminate].
  - split; [name|]. split; [split; [name|quote]|]. split; [intros p [= <-]; split; [name|quote]|]. split; [intros a [= <-]; quote|].
    intros x [= <-]. split; [quote|discriminate].
Qed.
Lemma v_tns : quotable "urn:shopping".
Proof. quote. Qed.
Lemma v_hex : forall s, In s ["urn:shop"] -> hex5 (v_md5 s).
Proof. intros s [<-|[]]. split; [reflexivity|]. intros c H. vm_compute in H. repeat (destruct H as [<-|H]; [vm_compute; intuition discriminate|]). contradiction. Qed.
Lemma v_bound : schemas_bound v_md5 v_state ["urn:shop"] [v_elements].
Proof. constructor; [reflexivity|constructor]. Qed.
Lemma v_client : Forall (fun p => Forall client_op (po_ops p)) (soap_ports v_plan).
Proof. constructor; [|constructor]. constructor; [|constructor; [|constructor]]; vm_compute; intuition discriminate. Qed.
Lemma other_end n suf : (exists c t, rev (to_l n) = c :: t /\ hd_error (rev (to_l suf)) = Some "E"%char /\ c <> "E"%char) -> forall s, n <> (s ++ suf)%string.
Proof.
  intros (c & t & E1 & E2 & Nc) s Ens. subst n. rewrite to_l_app, rev_app_distr in E1. destruct (rev (to_l suf)); [discriminate|]. injection E2 as ->. now injection E1 as <- _.
Qed.
Lemma too_short_end n : String.length n < 7 -> forall s, n <> (s ++ "_method")%string.
Proof. intros Ln s ->. rewrite <- length_to_l, to_l_app, app_length in Ln. cbn in Ln. Lia.lia. Qed.
Lemma too_short_start n : String.length n < 7 -> forall s, n <> ("Schema_" ++ s)%string.
Proof. intros Ln s ->. cbn in Ln. Lia.lia. Qed.
Ltac served :=
  split; [discriminate|]; split; [discriminate|]; split; [cbn; intuition discriminate|]; let s := fresh in intros s; split; [apply too_short_end; cbn; Lia.lia|];
  split; [|apply too_short_start; cbn; Lia.lia];
  apply other_end; eexists _, _; split; [vm_compute; reflexivity|]; split; [reflexivity|discriminate].
Lemma v_server : Forall (fun p => Forall server_op (po_ops p)) (soap_ports v_plan) /\ soap_first v_plan.
Proof.
  split.
  - constructor; [|constructor]. constructor; [|constructor; [|constructor]]; served.
  - intros ps [<-|[]]. discriminate.
Qed.
Lemma v_names : NoDup (map po_name (soap_ports v_plan)).
Proof. repeat constructor. intros []. Qed.
Lemma v_absolute : absolute v_address /\ no_empty_part v_address /\ without "$" (resource v_address).
Proof.
  pose proof v_usable as V. inversion V as [|? ? (_ & A & N & W & _) _]; subst. split; [exact A|]. split; [exact N|].
  intros c Hc H. vm_compute in Hc, H. repeat (destruct Hc as [<-|Hc]; [intuition discriminate|]). contradiction.
Qed.

(** ** Documents that are read wrongly *)
Definition v_in : node := v_message "orderIn" [v_part "body" "sns:order"].
Definition v_out : node := v_message "orderOut" [v_part "body" "sns:receipt"].
Definition v_doc (messages : list node) (style : string) (ops abstract : list node) : node :=
  v_definitions (messages ++
    [wel "portType" [("name", "Shopping")] abstract; v_binding "ShopBinding" "tns:Shopping" style soap_http ops;
     wel "service" [("name", "Shop")] [v_port "ShopPort" "tns:ShopBinding" "http://example.org/shop"]]).
Definition v_op (name : string) : node := v_operation name [("soapAction", ("urn:" ++ name)%string)] [].
Definition v_ab (name : string) : node := v_abstract name "tns:orderIn" (Some "tns:orderOut").
Definition v_simple (name : string) : node := v_doc [v_in; v_out] "document" [v_op name] [v_ab name].
(** Header blocks. *)
Definition v_header (part : string) : node := sel "header" [("message", "tns:heads"); ("part", part); ("use", "literal")] [].
Definition v_heads : node :=
  v_doc [v_in; v_out; v_message "heads" [v_part "auth" "sns:token"]] "document"
    [v_operation "place" [("soapAction", "urn:place")] [v_header "auth"]] [v_ab "place"].
(** A state with the Element objects of the schema and xsd.ComplexType as class 0. *)
Definition v_objects : wstate :=
  mkWst (mkWorld [ex_elem "" (TComplex "Item"); ex_elem "" (TComplex "Item"); ex_elem "" (TSimple (SString "String" no_sfacets))]
           [mkK [] [0] (mkMeta [] [] [] [] [])])
    (st_names v_state).
(** Bindings for SOAP 1.1 and 1.2. *)
Definition s12 (t : string) (attrs : list (string * string)) (kids : list node) : node := Elem (clark ns_wsdl_soap12 t) attrs kids.
Definition v_body12 : node := s12 "body" [("use", "literal")] [].
Definition v_both : node := v_definitions
  [v_in; v_out; wel "portType" [("name", "Shopping")] [v_ab "place"];
   v_binding "ShopBinding" "tns:Shopping" "document" soap_http [v_op "place"];
   wel "binding" [("name", "Shop12Binding"); ("type", "tns:Shopping")]
     [s12 "binding" [("transport", soap_http); ("style", "document")] [];
      wel "operation" [("name", "place")] [s12 "operation" [("soapAction", "urn:place")] []; wel "input" [] [v_body12]; wel "output" [] [v_body12]]];
   wel "service" [("name", "Shop")]
     [v_port "ShopPort" "tns:ShopBinding" "http://example.org/shop";
      wel "port" [("name", "Shop12Port"); ("binding", "tns:Shop12Binding")] [s12 "address" [("location", "http://example.org/shop")] []]]].
(** The Method of an operation of ShopPort in the imported module. *)
Definition v_method (server : bool) (doc : node) (op : string) : option gmethod :=
  match v_import server doc with
  | Ok st => match assoc "ShopPort_SERVICE" (st_names st) with Some (WvService s) => method_of s op | _ => None end
  | Err _ => None
  end.
Definition v_stub (doc : node) : option gstub :=
  match v_import false doc with
  | Ok st => match assoc "ShopPortServiceStub" (st_names st) with Some (WvStub t) => Some t | _ => None end
  | Err _ => None
  end.
