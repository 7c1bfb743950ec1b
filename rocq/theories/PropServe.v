(** C89: the documents a dispatcher serves. *)
From Coq Require Import String Ascii List ZArith Bool.
From Verif Require Import PyBase Xml PyVal XsdSimple XsdComplex XsdSchema PyHttp Soap Client Dispatch ExEnv ExXsd ExSoap LibClasses Py2Xsd Py2Wsdl
  SpecParse SpecSchema SpecSimple SpecHttp SpecDispatch SpecXsd SpecGenWsdl Serve SpecServe PfServe3 ExServe.
Import ListNotations.
Open Scope nat_scope.
Open Scope string_scope.
Open Scope list_scope.

(** A dispatcher can be made, and a GET request with the location of any schema
    below answers with the XSD document of that schema, in which each location is
    a link; any other location is not found. *)
Theorem C89_serves :
  forall O lim E G graph parts show compile W (F : full_service W) root locs k valid mw hooks strict,
  sv_schemas (fs_service F) = [root] -> service_describable O E G (service_object graph parts F) ->
  (forall t, below graph [root] t -> schema_describable O E G (schema_object graph parts t)) ->
  well_located graph [root] -> (forall t, below graph [root] t -> In (s_location (graph t)) locs) -> length locs < 10 + k ->
  (forall r, knows graph (fun t => xsd_document O E G (schema_object graph parts t)) [root] r ->
     compile r (xsd_document O E G (schema_object graph parts root)) = Ok valid) ->
  (forall name, In name (map fst (or_empty hooks)) -> exists d, In d documented_hooks /\ String.prefix d name = true) ->
  exists D prefixes, new_dispatcher (10 + k) O (lib_env lim) E G graph parts show compile F mw hooks None None strict = Ok (D, valid) /\
    d_service D = fs_service F /\ d_middlewares D = or_empty mw /\ d_hooks D = or_empty hooks /\ d_strict D = strict /\
    d_wsdl D = show (mkDoc prefixes (describe_service O E G (service_with_links (service_object graph parts F)))) /\
    (or_empty hooks = [] -> forall P w rq l, request_method rq "GET" -> plain_location l -> query_of rq = query l ->
     exists rs, dispatch P D w rq = (w, [], Ok rs) /\
       (forall t, below graph [root] t -> s_location (graph t) = Some l ->
          rs_content rs = Some (show (xsd_document O E G (with_links (schema_object graph parts t)))) /\ rs_headers rs = [("Content-Type", "text/xml")]) /\
       ((forall t, below graph [root] t -> s_location (graph t) <> Some l) ->
          rs_content rs = Some "not_found" /\ rs_headers rs = [("Content-Type", "text/plain")])).
Proof. exact serves_all. Qed.
Print Assumptions C89_serves.
(** The WSDL document refers to exactly the links of the schemas that the
    service's own schema imports or includes, *)
Theorem C89_links_wsdl :
  forall O E G graph parts W (F : full_service W) root, sv_schemas (fs_service F) = [root] -> well_located graph [root] ->
  forall l, refers_to (describe_service O E G (service_with_links (service_object graph parts F))) l <->
    exists t l0, imports_of graph root t /\ s_location (graph t) = Some l0 /\ l = link l0.
Proof. exact links_wsdl. Qed.
Print Assumptions C89_links_wsdl.
(** and so does each XSD document for its schema. *)
Theorem C89_links_xsd :
  forall O E G graph parts root s, well_located graph [root] -> below graph [root] s ->
  forall l, refers_to (xd_root (xsd_document O E G (with_links (schema_object graph parts s)))) l <->
    exists t l0, imports_of graph s t /\ s_location (graph t) = Some l0 /\ l = link l0.
Proof. exact links_xsd. Qed.
Print Assumptions C89_links_xsd.
(** A service with no schema or with several cannot be served, not even with
    documents made by hand. *)
Theorem C89_one_schema_refuted :
  forall n O L E G graph parts show compile W (F : full_service W) mw hooks wsdl xsds strict r,
  length (sv_schemas (fs_service F)) <> 1 ->
  new_dispatcher n O L E G graph parts show compile F mw hooks wsdl xsds strict <> Ok r.
Proof. exact one_schema. Qed.
Print Assumptions C89_one_schema_refuted.
(** Nor can one whose schema imports another that has no location. *)
Theorem C89_nameless_refuted :
  forall O lim E G graph parts show compile W (F : full_service W) k mw hooks xsds strict r s t,
  service_describable O E G (service_object graph parts F) -> In s (sv_schemas (fs_service F)) -> In t (s_imports (graph s)) ->
  s_location (graph t) = None \/ s_location (graph t) = Some "" ->
  new_dispatcher (10 + k) O (lib_env lim) E G graph parts show compile F mw hooks None xsds strict <> Ok r.
Proof. exact nameless. Qed.
Print Assumptions C89_nameless_refuted.
(** A link is the location as it stands: one with a plus sign leads nowhere. *)
Theorem C89_query_refuted :
  exists D, new_dispatcher 10 ex_oracle (lib_env 0) x_env x_decls (v_graph "a+b.xsd") v_parts v_show v_compile (v_service [0]) None None None None true = Ok (D, v_valid) /\
    refers_to (describe_service ex_oracle x_env x_decls (service_with_links (service_object (v_graph "a+b.xsd") v_parts (v_service [0])))) (link "a+b.xsd") /\
    exists rs, dispatch echo_P D tt (echo_get (query "a+b.xsd")) = (tt, [], Ok rs) /\ rs_content rs = Some "not_found".
Proof. exact plus_lost. Qed.
Print Assumptions C89_query_refuted.

Example C89_nonvacuous :
  service_describable ex_oracle x_env x_decls (service_object (v_graph "b.xsd") v_parts (v_service [0])) /\
  (forall t, below (v_graph "b.xsd") [0] t -> schema_describable ex_oracle x_env x_decls (schema_object (v_graph "b.xsd") v_parts t)) /\
  well_located (v_graph "b.xsd") [0] /\ below (v_graph "b.xsd") [0] 2 /\
  (exists D rs, new_dispatcher 10 ex_oracle (lib_env 0) x_env x_decls (v_graph "b.xsd") v_parts v_show v_compile (v_service [0]) None None None None true = Ok (D, v_valid) /\
     map fst (d_xsds D) = [Some "b.xsd"; Some "a.xsd"; Some "c.xsd"] /\
     dispatch echo_P D tt (echo_get (query "b.xsd")) = (tt, [], Ok rs) /\ rs_content rs = Some "urn:b http://www.w3.org/2001/XMLSchema") /\
  (exists m, new_dispatcher 10 ex_oracle (lib_env 0) x_env x_decls (v_graph "b.xsd") v_parts v_show v_compile (v_service [0; 1]) None None None None true = Err (Exn EXMLSyntaxError m)) /\
  new_dispatcher 10 ex_oracle (lib_env 0) x_env x_decls (v_graph "") v_parts v_show v_compile (v_service [0]) None None None None true = Err KeyError.
Proof.
  split; [exact v_service_describable|]. split; [intros t H; apply v_describable; eapply v_reach; exact H|]. split; [exact v_located|].
  split; [apply v_all; auto|]. split; [|split].
  - eexists. eexists. split; [vm_compute; reflexivity|]. split; [reflexivity|]. split; vm_compute; reflexivity.
  - eexists. vm_compute. reflexivity.
  - vm_compute. reflexivity.
Qed.
