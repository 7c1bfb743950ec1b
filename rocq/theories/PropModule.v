(** C81: the module generated from the WSDL document of a service. *)
From Coq Require Import String Ascii List ZArith NArith Bool Permutation.
From Verif Require Import PyBase PyRe Xml PyVal XsdSimple XsdComplex XsdMeta XsdSchema PyHttp Soap Dispatch Client ExEnv LibClasses Py2Xsd SpecXsd Py2Wsdl GenOrder SpecOrder PfOrder2 Xsd2Py PyLoad XsdPrefixes PyUrl Wsdl2Py PyService PyModule
  SpecParse SpecRound SpecGenCode SpecGenWsdl SpecUrl SpecService SpecRegen SpecLoadable SpecReclass SpecExchange SpecModule PfModule ExGenCode ExService ExInterop ExReclass ExExchange ExModule.
Import ListNotations.
Open Scope nat_scope.
Open Scope string_scope.
Open Scope list_scope.

(** For a client: it can be imported, its service has the methods of the original
    one and finds the elements of the schema, and its stub posts to the location. *)
Theorem C81_client_partial :
  forall sort n rt limit O lim E G rank k md5 checked s a sc doc root, list_sort sort -> 0 < n ->
  service_describable O E G s -> referable s -> service_regenerable s a -> ws_schemas s = [sc] -> schema_reproducible E G limit rank sc ->
  ~ In (ws_tns s) ["http://www.w3.org/2001/XMLSchema"; "http://www.w3.org/2000/10/XMLSchema"] -> hex5 (md5 (gs_tns sc)) ->
  generate_wsdl (10 + k) O (lib_env lim) E G s = Ok doc -> layout (wire (xd_root doc)) root ->
  client_regenerable s -> exists w m els g t,
    import_wsdl sort n rt limit (10 + k) O (lib_env lim) md5 checked false doc root = Ok w /\ wl_schemas w = [m] /\
    offers (wl_state w) m els /\ regenerated (wl_state w) [els] s g /\
    assoc ((ws_name s ++ "Port") ++ "ServiceStub")%string (st_names (wl_state w)) = Some (WvStub t) /\ gt_service t = g /\
    stub_posts_to t = Ok (ws_location s) /\
    (forall m, In m (ws_methods s) -> callable_name (wm_op m) -> ~ In "call" (map wm_op (ws_methods s)) -> stub_operation t (wm_op m) = Some (wm_op m)).
Proof. exact client_module. Qed.
Print Assumptions C81_client_partial.
(** For a server: the same, with a function for each method. *)
Theorem C81_server_partial :
  forall sort n rt limit O lim E G rank k md5 checked s a sc doc root, list_sort sort -> 0 < n ->
  service_describable O E G s -> referable s -> service_regenerable s a -> ws_schemas s = [sc] -> schema_reproducible E G limit rank sc ->
  ~ In (ws_tns s) ["http://www.w3.org/2001/XMLSchema"; "http://www.w3.org/2000/10/XMLSchema"] -> hex5 (md5 (gs_tns sc)) ->
  generate_wsdl (10 + k) O (lib_env lim) E G s = Ok doc -> layout (wire (xd_root doc)) root ->
  server_regenerable s -> exists w m els g,
    import_wsdl sort n rt limit (10 + k) O (lib_env lim) md5 checked true doc root = Ok w /\ wl_schemas w = [m] /\
    offers (wl_state w) m els /\ regenerated (wl_state w) [els] s g /\ Forall2 calls_function (ws_methods s) (gv_methods g).
Proof. exact server_module. Qed.
Print Assumptions C81_server_partial.
(** In both, the classes of the schema are there with their fields, and found
    under their names unless these are names of the service. *)
Theorem C81_classes_partial :
  forall sort n rt limit O lim E G rank k md5 checked s a sc doc root, list_sort sort -> 0 < n ->
  service_describable O E G s -> referable s -> service_regenerable s a -> ws_schemas s = [sc] -> schema_reproducible E G limit rank sc ->
  ~ In (ws_tns s) ["http://www.w3.org/2001/XMLSchema"; "http://www.w3.org/2000/10/XMLSchema"] -> hex5 (md5 (gs_tns sc)) ->
  generate_wsdl (10 + k) O (lib_env lim) E G s = Ok doc -> layout (wire (xd_root doc)) root ->
  forall (server : bool) w, (if server then server_regenerable s else client_regenerable s) ->
  import_wsdl sort n rt limit (10 + k) O (lib_env lim) md5 checked server doc root = Ok w ->
  exists m, wl_schemas w = [m] /\
    Permutation (map fst (ms_names (md_state m))) (class_names sc) /\
    forall c d, In c (gs_complex sc) -> e_cls E c = Some d ->
      (exists fs, new_instance O (module_env limit (md_state m)) c = Ok fs) /\
      (exists d', module_class m c d' /\ same_class m c d d' /\ cd_schema d' = Some {| si_tns := Some (gs_tns sc); si_efd := gs_efd sc |}) /\
      (c <> ("Schema_" ++ md5 (gs_tns sc))%string -> ~ In c (service_names server s) ->
       exists i, assoc c (ms_names (md_state m)) = Some (MComplex i) /\ assoc c (st_names (wl_state w)) = Some (WvClass i)).
Proof. exact m_classes. Qed.
Print Assumptions C81_classes_partial.
(** The elements of the schema have their types; *)
Theorem C81_elements_partial :
  forall sort n rt limit O lim E G rank k md5 checked s a sc doc root, list_sort sort -> 0 < n ->
  service_describable O E G s -> referable s -> service_regenerable s a -> ws_schemas s = [sc] -> schema_reproducible E G limit rank sc ->
  ~ In (ws_tns s) ["http://www.w3.org/2001/XMLSchema"; "http://www.w3.org/2000/10/XMLSchema"] -> hex5 (md5 (gs_tns sc)) ->
  generate_wsdl (10 + k) O (lib_env lim) E G s = Ok doc -> layout (wire (xd_root doc)) root ->
  forall (server : bool) w, (if server then server_regenerable s else client_regenerable s) ->
  import_wsdl sort n rt limit (10 + k) O (lib_env lim) md5 checked server doc root = Ok w ->
  exists m, wl_schemas w = [m] /\ map fst (md_elements m) = map fst (gs_elements sc) /\
    forall name el, In (name, el) (gs_elements sc) ->
    exists t, assoc name (md_elements m) = Some (t, option_map written_group (ge_subst el)) /\
      if ge_class el then same_type m (ge_type el) t
      else t = TComplex (capital name) /\ exists c d d', ge_type el = TComplex c /\ e_cls E c = Some d /\ module_class m (capital name) d' /\ same_class m (capital name) d d'.
Proof. exact m_elements. Qed.
Print Assumptions C81_elements_partial.
(** and if the classes lose nothing in the document, they read, write and build as
    the original ones. *)
Theorem C81_exchange_partial :
  forall sort n rt limit O lim E G rank k md5 checked s a sc doc root, list_sort sort -> 0 < n ->
  service_describable O E G s -> referable s -> service_regenerable s a -> ws_schemas s = [sc] -> schema_reproducible E G limit rank sc ->
  ~ In (ws_tns s) ["http://www.w3.org/2001/XMLSchema"; "http://www.w3.org/2000/10/XMLSchema"] -> hex5 (md5 (gs_tns sc)) ->
  generate_wsdl (10 + k) O (lib_env lim) E G s = Ok doc -> layout (wire (xd_root doc)) root ->
  forall (server : bool) w, (if server then server_regenerable s else client_regenerable s) ->
  import_wsdl sort n rt limit (10 + k) O (lib_env lim) md5 checked server doc root = Ok w ->
  schema_faithful rt E sc -> limit <= e_limit E ->
  exists m, wl_schemas w = [m] /\
    (forall c, In c (gs_complex sc) -> forall j y, parse_obj j O (module_env limit (md_state m)) c y = parse_obj j O E c y) /\
    (forall v, made_of (gs_complex sc) v -> forall j tag ns efd, xml_of j O (module_env limit (md_state m)) v tag ns efd = xml_of j O E v tag ns efd) /\
    (forall c kw, In c (gs_complex sc) -> flat E sc -> Forall (fun p => made_of (gs_complex sc) (snd p)) kw ->
      construct O (module_env limit (md_state m)) c kw = construct O E c kw).
Proof. exact m_exchange. Qed.
Print Assumptions C81_exchange_partial.
Example C81_nonvacuous :
  service_describable ex_oracle x_env r_decls m_shop /\ referable m_shop /\ service_regenerable m_shop m_address /\ ws_schemas m_shop = [m_schema] /\
  schema_reproducible x_env r_decls 20 r_rank m_schema /\ ~ In (ws_tns m_shop) ["http://www.w3.org/2001/XMLSchema"; "http://www.w3.org/2000/10/XMLSchema"] /\ hex5 (i_md5 (gs_tns m_schema)) /\
  client_regenerable m_shop /\ server_regenerable m_shop /\ schema_faithful g_rt x_env m_schema /\ flat x_env m_schema /\
  exists doc, generate_wsdl 14 ex_oracle (lib_env 10) x_env r_decls m_shop = Ok doc /\
    forall server, exists w, import_wsdl insertion_sort 20 g_rt 20 14 ex_oracle (lib_env 10) i_md5 v_checked server doc (wire (xd_root doc)) = Ok w /\
      assoc "Order" (st_names (wl_state w)) = Some (WvClass 3) /\
      assoc "Schema_c0ffe" (st_names (wl_state w)) = Some (WvSchema [("order", 7); ("maker", 8)]).
Proof.
  split; [exact m_shop_describable|]. split; [exact m_shop_referable|]. split; [exact m_shop_regenerable|]. split; [reflexivity|]. split; [exact m_reproducible|].
  split; [exact m_namespace|]. split; [exact m_hex|]. split; [exact m_client|]. split; [exact m_server|]. split; [exact m_faithful|]. split; [exact m_flat|].
  eexists. split; [vm_compute; reflexivity|]. intros []; (eexists; split; [vm_compute; reflexivity|]; split; vm_compute; reflexivity).
Qed.
(** A class called like an operation is lost in the module for a server. *)
Theorem C81_clash_refuted :
  In "Order" (gs_complex m_schema) /\
  exists w f, m_import true m_clash = Ok w /\ assoc "Order" (st_names (wl_state w)) = Some (WvFunction f).
Proof. split; [now left|]. eexists _, _. split; vm_compute; reflexivity. Qed.
Print Assumptions C81_clash_refuted.
