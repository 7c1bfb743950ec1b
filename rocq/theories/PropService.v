(** C73 and C74: services generated from WSDL documents. *)
From Coq Require Import String Ascii List ZArith NArith Bool.
From Verif Require Import PyBase Xml PyVal XsdSimple XsdComplex XsdMeta Dispatch Soap LibClasses Py2Xsd Py2Wsdl Xsd2Py PyLoad PyUrl Wsdl2Py PyService
  SpecUrl SpecGenCode SpecService ExEnv ExGenCode ExService PfService5.
Import ListNotations.
Open Scope nat_scope.
Open Scope string_scope.
Open Scope list_scope.

(** ** C73 *)

(** The template, scheme and host made from an address give that address, and
    with another scheme and host the same resource there. *)
Theorem C73_address_partial :
  forall checked a, absolute a -> no_empty_part a -> without "$" (resource a) ->
  exists template, url_template checked (written a) = Ok template /\
    url_component checked (written a) "scheme" = Ok (a_scheme a) /\ url_component checked (written a) "netloc" = Ok (a_authority a) /\
    forall s h, stub_location template s h LNone = Ok (at_host s h a).
Proof. exact address_kept. Qed.
Print Assumptions C73_address_partial.
Example C73_nonvacuous : absolute v_address /\ no_empty_part v_address /\ without "$" (resource v_address) /\
  written v_address = "https://example.org:8080/shop/v1?k=1" /\ at_host "http" "localhost" v_address = "http://localhost/shop/v1?k=1".
Proof. destruct v_absolute as (A & B & C). repeat (split; [assumption|]). split; reflexivity. Qed.
(** What a stub posts to when its location is [text] in the WSDL. *)
Definition posted (text : string) : res string :=
  template <- url_template v_checked text ;;
  scheme <- url_component v_checked text "scheme" ;;
  host <- url_component v_checked text "netloc" ;;
  stub_location template scheme host LNone.
(** Empty queries, fragments and parameters are lost; dollar signs are taken for placeholders;
    a relative address becomes one without a host. *)
Theorem C73_refuted :
  posted "http://example.org/shop?" = Ok "http://example.org/shop" /\
  posted "http://example.org/shop#" = Ok "http://example.org/shop" /\
  posted "http://example.org/shop;" = Ok "http://example.org/shop" /\
  posted "https://example.org/shop;" = Ok "https://example.org/shop" /\
  posted "http://example.org/a$$b" = Ok "http://example.org/a$b" /\
  posted "http://example.org/$host" = Ok "http://example.org/example.org" /\
  posted "/shop" = Ok ":///shop".
Proof. repeat split; vm_compute; reflexivity. Qed.
Print Assumptions C73_refuted.
(** A location given to the stub is used as it is; a function gets the template and
    the scheme and host; nothing else is accepted. *)
Theorem C73_given :
  forall template s h, (forall url, stub_location template s h (LText url) = Ok url) /\
  (forall f, stub_location template s h (LCall f) = f template [("scheme", s); ("host", h)]) /\
  stub_location template s h LOther = Err TypeError.
Proof. exact location_given. Qed.
Print Assumptions C73_given.
Example C73_given_nonvacuous :
  stub_location "${scheme}://${host}/a" "http" "x" (LText "http://$host/b") = Ok "http://$host/b" /\
  stub_location "${scheme}://${host}/a" "http" "x" LNone = Ok "http://x/a".
Proof. split; vm_compute; reflexivity. Qed.

(** ** C74 *)

(** The module for a client has, for every port bound to SOAP over HTTP, a
    service with a Method for every operation, and a stub that posts to the
    address of the port and has a method for every operation. *)
Theorem C74_client_partial :
  forall n O L md5 checked rt base root d tns schemas els plan st,
  parse_obj n O L (wn (version_from_xml root) "Definitions") root = Ok d ->
  states_document d tns schemas plan -> quotable tns -> (forall s, In s schemas -> hex5 (md5 s)) -> schemas_bound md5 st schemas els ->
  Forall usable_port (soap_ports plan) -> Forall (fun p => Forall client_op (po_ops p)) (soap_ports plan) -> NoDup (map po_name (soap_ports plan)) ->
  exists code st', code_from_wsdl n O L md5 checked false root = Ok code /\ exec_service rt base st code = Ok st' /\
    forall p, In p (soap_ports plan) -> exists s t,
      holds_service st' (version_from_xml root) tns els p s /\ holds_stub st' p t /\ gt_service t = s /\
      stub_posts_to t = Ok (written (po_address p)) /\
      forall o, In o (po_ops p) -> exists m, method_of s (op_name o) = Some m /\ method_for o m /\
        (op_action o <> None -> has_action o m) /\
        (op_style o <> None \/ po_style p = "document" -> has_style p o m) /\
        (callable_name (op_name o) -> ~ In "call" (map op_name (po_ops p)) -> stub_operation t (op_name o) = Some (op_name o)).
Proof. exact client_code. Qed.
Print Assumptions C74_client_partial.
(** The module for a server has the services, whose Methods call functions of
    the module named after the operations. *)
Theorem C74_server_partial :
  forall n O L md5 checked rt base root d tns schemas els plan st,
  parse_obj n O L (wn (version_from_xml root) "Definitions") root = Ok d ->
  states_document d tns schemas plan -> quotable tns -> (forall s, In s schemas -> hex5 (md5 s)) -> schemas_bound md5 st schemas els ->
  Forall usable_port (soap_ports plan) -> Forall (fun p => Forall server_op (po_ops p)) (soap_ports plan) -> soap_first plan ->
  NoDup (map po_name (soap_ports plan)) ->
  exists code st', code_from_wsdl n O L md5 checked true root = Ok code /\ exec_service rt base st code = Ok st' /\
    forall p, In p (soap_ports plan) -> exists s,
      holds_service st' (version_from_xml root) tns els p s /\
      forall o, In o (po_ops p) -> exists m, method_of s (op_name o) = Some m /\ method_for o m /\
        (op_action o <> None -> has_action o m) /\
        (op_style o <> None \/ po_style p = "document" -> has_style p o m) /\ implements o m.
Proof. exact server_code. Qed.
Print Assumptions C74_server_partial.
Example C74_nonvacuous :
  parse_obj 14 ex_oracle (lib_env 10) (wn (version_from_xml v_shop) "Definitions") v_shop = Ok v_d /\
  states_document v_d "urn:shopping" ["urn:shop"] v_plan /\ quotable "urn:shopping" /\ (forall s, In s ["urn:shop"] -> hex5 (v_md5 s)) /\
  schemas_bound v_md5 v_state ["urn:shop"] [v_elements] /\ Forall usable_port (soap_ports v_plan) /\
  Forall (fun p => Forall client_op (po_ops p)) (soap_ports v_plan) /\ Forall (fun p => Forall server_op (po_ops p)) (soap_ports v_plan) /\
  soap_first v_plan /\ NoDup (map po_name (soap_ports v_plan)) /\ soap_ports v_plan = [v_plan_port] /\ po_ops v_plan_port = [v_place; v_ask].
Proof.
  split; [exact (proj2 v_d_read)|]. split; [exact v_states|]. split; [exact v_tns|]. split; [exact v_hex|]. split; [exact v_bound|]. split; [exact v_usable|].
  split; [exact v_client|]. split; [exact (proj1 v_server)|]. split; [exact (proj2 v_server)|]. split; [exact v_names|]. split; reflexivity.
Qed.

(** A message whose part is given by a type makes a module that cannot be
    imported: the method of the stub has a parameter called None; *)
Theorem C74_type_refuted :
  exists code, v_code false (v_doc [v_message "orderIn" [wel "part" [("name", "x"); ("type", "tns:item")] []]; v_out] "document" [v_op "place"] [v_ab "place"]) = Ok code /\
    In (SStub "ShopPortServiceStub" "ShopPort_SERVICE" "http" "example.org" [("place", "None")]) code /\
    exec_service g_rt 0 v_state code = Err SyntaxError.
Proof. eexists. split; [vm_compute; reflexivity|]. split; [right; right; left; reflexivity|vm_compute; reflexivity]. Qed.
Print Assumptions C74_type_refuted.
(** with no part, or two, no module is made; *)
Theorem C74_parts_refuted :
  v_code false (v_doc [v_message "orderIn" []; v_out] "document" [v_op "place"] [v_ab "place"]) = Err ValueError /\
  v_code false (v_doc [v_message "orderIn" [v_part "body" "sns:order"; v_part "more" "sns:token"]; v_out] "document" [v_op "place"] [v_ab "place"]) = Err ValueError.
Proof. split; vm_compute; reflexivity. Qed.
Print Assumptions C74_parts_refuted.
(** nor for a server of an operation without output. *)
Theorem C74_one_way_refuted :
  v_code true (v_doc [v_in] "document" [v_op "place"] [v_abstract "place" "tns:orderIn" None]) = Err UndefinedError /\
  exists m, v_method false (v_doc [v_in] "document" [v_op "place"] [v_abstract "place" "tns:orderIn" None]) "place" = Some m.
Proof. split; [vm_compute; reflexivity|]. eexists. vm_compute. reflexivity. Qed.
Print Assumptions C74_one_way_refuted.
(** An operation without soapAction gets the action None, *)
Theorem C74_action_refuted :
  exists m, v_method false (v_doc [v_in; v_out] "document" [v_operation "place" [] []] [v_ab "place"]) "place" = Some m /\ gm_action m = "None".
Proof. eexists. split; vm_compute; reflexivity. Qed.
Print Assumptions C74_action_refuted.
(** and one without style that of a document, whatever its binding says. *)
Theorem C74_style_refuted :
  exists m, v_method false (v_doc [v_in; v_out] "rpc" [v_op "place"] [v_ab "place"]) "place" = Some m /\ gm_style m = "document".
Proof. eexists. split; vm_compute; reflexivity. Qed.
Print Assumptions C74_style_refuted.
(** Operations called like attributes of a stub cannot be called; one called
    [call] takes the others with it. *)
Theorem C74_hidden_refuted :
  (forall name, In name ["username"; "password"; "service"; "location"] -> forall t, stub_operation t name = None) /\
  (forall t c, assoc "call" (gt_calls t) = Some c -> forall name, stub_operation t name = None) /\
  exists t, v_stub (v_doc [v_in; v_out] "document" [v_op "location"; v_op "call"; v_op "place"] [v_ab "location"; v_ab "call"; v_ab "place"]) = Some t /\
    assoc "location" (gt_calls t) = Some "location" /\ assoc "call" (gt_calls t) = Some "call" /\ assoc "place" (gt_calls t) = Some "place".
Proof.
  split; [|split].
  - intros name I t. unfold stub_operation. destruct I as [<-|[<-|[<-|[<-|[]]]]]; reflexivity.
  - intros t c E name. unfold stub_operation. rewrite E. now destruct (str_in name instance_attributes).
  - eexists. split; [vm_compute; reflexivity|]. repeat split; reflexivity.
Qed.
Print Assumptions C74_hidden_refuted.
(** Names that are no identifiers, keywords, and elements called [self] or [request] make
    modules that cannot be imported. *)
Theorem C74_names_refuted :
  v_import false (v_simple "get-order") = Err SyntaxError /\ v_import false (v_simple "import") = Err SyntaxError /\
  v_import false (v_doc [v_message "orderIn" [v_part "body" "sns:self"]; v_out] "document" [v_op "place"] [v_ab "place"]) = Err SyntaxError /\
  v_import true (v_doc [v_message "orderIn" [v_part "body" "sns:request"]; v_out] "document" [v_op "place"] [v_ab "place"]) = Err SyntaxError.
Proof. repeat split; vm_compute; reflexivity. Qed.
Print Assumptions C74_names_refuted.
(** Of two operations of the same name only the last is left. *)
Theorem C74_overloaded_refuted :
  exists st s m, v_import false (v_doc [v_in; v_out] "document" [v_op "place"; v_operation "place" [("soapAction", "urn:second")] []] [v_ab "place"; v_ab "place"]) = Ok st /\
    assoc "ShopPort_SERVICE" (st_names st) = Some (WvService s) /\ gv_methods s = [m; m] /\ gm_action m = "urn:second".
Proof. eexists _, _, _. split; [vm_compute; reflexivity|]. repeat split; reflexivity. Qed.
Print Assumptions C74_overloaded_refuted.
(** A function of a server takes the place of the class of that name. *)
Theorem C74_shadow_refuted :
  exists st f, assoc "Item" (st_names v_state) = Some WvOther /\ v_import true (v_simple "Item") = Ok st /\ assoc "Item" (st_names st) = Some (WvFunction f).
Proof. eexists _, _. split; [reflexivity|]. split; vm_compute; reflexivity. Qed.
Print Assumptions C74_shadow_refuted.
(** A header block gets the name of the message part, not of its element. *)
Theorem C74_header_refuted :
  exists code st c k, v_code false v_heads = Ok code /\ exec_service g_rt 0 v_objects code = Ok st /\
    assoc "orderInHeaders" (st_names st) = Some (WvClass c) /\ nth_error (w_classes (st_world st)) c = Some k /\
    map (fun n => option_map (fun f => (f_name f, f_tag f)) (nth_error (w_store (st_world st)) n)) (mt_all (k_meta k)) = [Some ("auth", None)].
Proof. eexists _, _, _, _. split; [vm_compute; reflexivity|]. split; [vm_compute; reflexivity|]. repeat split; vm_compute; reflexivity. Qed.
Print Assumptions C74_header_refuted.
(** With bindings for SOAP 1.1 and 1.2 in one document, the ports of both speak 1.2. *)
Theorem C74_versions_refuted :
  exists st s t, v_import false v_both = Ok st /\
    assoc "ShopPort_SERVICE" (st_names st) = Some (WvService s) /\ gv_version s = V12 /\
    assoc "Shop12Port_SERVICE" (st_names st) = Some (WvService t) /\ gv_version t = V12.
Proof. eexists _, _, _. split; [vm_compute; reflexivity|]. repeat split; vm_compute; reflexivity. Qed.
Print Assumptions C74_versions_refuted.
