(** C76 and C77: services regenerated from their own WSDL documents. *)
From Coq Require Import String Ascii List ZArith NArith Bool.
From Verif Require Import PyBase PfBase Xml PyVal XsdSimple XsdComplex XsdSchema PyHttp ExEnv LibClasses Py2Xsd SpecXsd XsdMeta Dispatch Soap Client Py2Wsdl Xsd2Py PyLoad
  ExGenCode PyUrl Wsdl2Py PyService PyInterop SpecGenCode SpecParse SpecRound SpecSoap SpecDispatch SpecHttp SpecClient SpecGenWsdl SpecUrl SpecService SpecInterop SpecRegen
  ExSoap ExXsd ExGenWsdl PfClient3 ExService ExInterop ExRegen PfRegen3.
Import ListNotations.
Open Scope nat_scope.
Open Scope string_scope.
Open Scope list_scope.

(** ** C76 *)

(** The client generated from the WSDL document of a service has the methods of
    the service, and posts to its location; *)
Theorem C76_client_partial :
  forall O lim E G k md5 checked rt base s a doc root els st,
  service_describable O E G s -> referable s -> service_regenerable s a -> client_regenerable s ->
  generate_wsdl (10 + k) O (lib_env lim) E G s = Ok doc -> layout (wire (xd_root doc)) root ->
  (forall sc, In sc (ws_schemas s) -> hex5 (md5 (gs_tns sc))) -> schemas_bound md5 st (map gs_tns (ws_schemas s)) els ->
  exists code st' g t, code_from_wsdl (10 + k) O (lib_env lim) md5 checked false root = Ok code /\ exec_service rt base st code = Ok st' /\
    regenerated st' els s g /\
    assoc ((ws_name s ++ "Port") ++ "ServiceStub")%string (st_names st') = Some (WvStub t) /\ gt_service t = g /\
    stub_posts_to t = Ok (ws_location s) /\
    (forall m, In m (ws_methods s) -> callable_name (wm_op m) -> ~ In "call" (map wm_op (ws_methods s)) -> stub_operation t (wm_op m) = Some (wm_op m)).
Proof. exact regen_client_code. Qed.
Print Assumptions C76_client_partial.
(** the server has the methods, with a function for each. *)
Theorem C76_server_partial :
  forall O lim E G k md5 checked rt base s a doc root els st,
  service_describable O E G s -> referable s -> service_regenerable s a -> server_regenerable s ->
  generate_wsdl (10 + k) O (lib_env lim) E G s = Ok doc -> layout (wire (xd_root doc)) root ->
  (forall sc, In sc (ws_schemas s) -> hex5 (md5 (gs_tns sc))) -> schemas_bound md5 st (map gs_tns (ws_schemas s)) els ->
  exists code st' g, code_from_wsdl (10 + k) O (lib_env lim) md5 checked true root = Ok code /\ exec_service rt base st code = Ok st' /\
    regenerated st' els s g /\ Forall2 calls_function (ws_methods s) (gv_methods g).
Proof. exact regen_server_code. Qed.
Print Assumptions C76_server_partial.
Example C76_nonvacuous :
  service_describable ex_oracle x_env x_decls r_shop /\ referable r_shop /\ service_regenerable r_shop r_address /\
  client_regenerable r_shop /\ server_regenerable r_shop /\
  (exists doc, generate_wsdl 14 ex_oracle (lib_env 10) x_env x_decls r_shop = Ok doc) /\
  (forall sc, In sc (ws_schemas r_shop) -> hex5 (i_md5 (gs_tns sc))) /\ schemas_bound i_md5 r_state (map gs_tns (ws_schemas r_shop)) [r_elements] /\
  exists t, r_stub r_shop = Some t /\ stub_posts_to t = Ok "http://example.org/shop" /\
    map (fun g => (gm_op g, gm_action g, gm_in g, gm_out g, gm_style g)) (gv_methods (gt_service t)) =
      [("place", "urn:place", IOName "order", IOName "box", "document"); ("ask", "urn:ask", IOName "box", IOName "order", "rpc")].
Proof.
  split; [exact r_describable|]. split; [exact r_referable|]. split; [exact r_regenerable|]. split; [exact r_client|]. split; [exact r_server|].
  split; [eexists; vm_compute; reflexivity|]. split. { intros sc [<-|[]]. split; [reflexivity|]. every_char. }
  split; [constructor; [reflexivity|constructor]|]. eexists. split; [vm_compute; reflexivity|]. split; vm_compute; reflexivity.
Qed.
(** The service comes back under another name. *)
Theorem C76_name_refuted :
  exists g, r_generated r_shop = Some g /\ ws_name r_shop = "Shop" /\ gv_name g = "ShopPort".
Proof. eexists. split; [vm_compute; reflexivity|]. split; reflexivity. Qed.
Print Assumptions C76_name_refuted.
(** Where a method takes or returns a class, the modules cannot be imported. *)
Theorem C76_class_refuted :
  forall server, r_module server (r_service "http://example.org/shop" V11 [mkWm "place" "urn:place" (IOClass "Order") (IOName "box") "document"]) = Err SyntaxError.
Proof. intros []; vm_compute; reflexivity. Qed.
Print Assumptions C76_class_refuted.
(** A location with placeholders, which the dispatcher would fill in, leads nowhere. *)
Theorem C76_placeholders_refuted :
  exists t, r_stub (r_service "${scheme}://${host}/shop" V11 [r_place]) = Some t /\ stub_posts_to t = Ok ":///:///shop".
Proof. eexists. split; vm_compute; reflexivity. Qed.
Print Assumptions C76_placeholders_refuted.

(** ** C77 *)

(** The generated client calls a service as a stub for the service itself does, *)
Theorem C77_same_call_partial :
  forall s g st els W (S : service W), regenerated st els s g -> runs s S -> headerless S ->
  forall (T : Type) P cls (fns : string -> handler W) (post : transport T) w op parameter header,
  stub_call P (as_service g (sv_schemas S) cls fns) post w op parameter header = stub_call P S post w op parameter header.
Proof. exact same_stub_call. Qed.
Print Assumptions C77_same_call_partial.
(** so calls of operations of the service run their functions and give their results. *)
Theorem C77_call_partial :
  forall s g st els (W : Type) P Q (D : dispatcher W) a base cls (fns : string -> handler W) op w m f tag parameter header,
  regenerated st els s g -> runs s (d_service D) -> headerless (d_service D) ->
  soap_platform P -> good_classes P Q -> plain D -> callable P Q D a base op m f tag parameter header ->
  let call := stub_call P (as_service g (sv_schemas (d_service D)) cls fns) (post_through a P D base) w op parameter header in
  exists data rq', reaches_handler P D (new_request (seen a base (request_headers (ws_version s) (m_action m)) data) data) rq' f /\
    rq_method rq' = Some m /\ erase (rq_body rq') = erase parameter /\
    (forall w' rq2 r out, sv_fns (d_service D) f (w, rq') (rq_body rq') = ((w', rq2), Ok r) ->
       rq_method rq2 = Some m -> rs_body (as_response r) = PVal out -> rs_header (as_response r) = VNone -> returnable P Q D m out VNone ->
       exists out', call = (w', Ok (CReturned out' VNone)) /\ erase out' = erase out) /\
    (forall w' rq2 code msg actor, sv_fns (d_service D) f (w, rq') (rq_body rq') = ((w', rq2), Err (SOAPError code msg actor)) ->
       text_good code -> text_good msg ->
       (forall x, error_response (pf_n P) (pf_O P) (pf_E P) (ws_version s) code msg VNone None = Ok x -> transmits P x) ->
       call = (w', Ok (CRaised (VStr code) (VStr msg) VNone))).
Proof. exact regen_call. Qed.
Print Assumptions C77_call_partial.
Example C77_nonvacuous :
  service_describable ex_oracle call_env x_decls r_echo /\ referable r_echo /\ (service_regenerable r_echo r_echo_address /\ client_regenerable r_echo) /\
  (exists doc code st, generate_wsdl 14 ex_oracle (lib_env 10) call_env x_decls r_echo = Ok doc /\
     code_from_wsdl 14 ex_oracle (lib_env 10) i_md5 v_checked false (wire (xd_root doc)) = Ok code /\ exec_service g_rt 0 i_state code = Ok st /\
     regenerated st [i_elements] r_echo r_client_service) /\
  (runs r_echo (Dispatch.d_service r_D) /\ headerless (Dispatch.d_service r_D)) /\ soap_platform i_P /\ good_classes i_P call_classes /\ plain r_D /\
  (forall a s, s = "hi" \/ s = "boom" -> callable i_P call_classes r_D a (fun _ => None) "Echo" r_method "my_echo" "echoRequest" (request_of s) VNone) /\
  returnable i_P call_classes r_D r_method (response_of "hi") VNone /\
  (forall a, exists b, r_call a "hi" = (["my_echo"; "hi"], Ok (CReturned b VNone)) /\ erase b = response_of "hi") /\
  (forall a, r_call a "boom" = ([], Ok (CRaised (VStr "Server") (VStr "it blew up") VNone))).
Proof.
  split; [exact r_echo_describable|]. split; [exact r_echo_referable|]. split; [exact r_echo_regenerable|].
  split. { eexists _, _, _. split; [vm_compute; reflexivity|]. split; [vm_compute; reflexivity|]. split; [vm_compute; reflexivity|].
           split; [vm_compute; reflexivity|]. split; [vm_compute; reflexivity|]. split; [vm_compute; reflexivity|]. split; [vm_compute; reflexivity|]. split; [vm_compute; reflexivity|].
           assert (X : gv_methods r_client_service = [mkGm "Echo" "urn:echo#echo" (IOName "echoRequest") (IOName "echoResponse") "body" "body" None None None "document"]) by (vm_compute; reflexivity).
           rewrite X. repeat constructor. }
  split; [exact r_runs|]. split; [exact i_platform|]. split; [exact call_rt_classes|]. split; [split; reflexivity|].
  split; [exact r_callable|]. split; [exact r_returnable|]. split.
  - intros a. destruct a; eexists; (split; vm_compute; reflexivity).
  - intros a. destruct a; vm_compute; reflexivity.
Qed.
