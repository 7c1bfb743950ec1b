(** C82, C83: generated clients and servers talk to the service they were
    generated from, and to each other. *)
From Coq Require Import String Ascii List ZArith NArith Bool.
From Verif Require Import PyBase Xml PyVal XsdSimple XsdComplex XsdMeta XsdSchema PyHttp Soap Dispatch Client ExEnv LibClasses Py2Xsd SpecXsd Py2Wsdl GenOrder SpecOrder PfOrder2 Xsd2Py PyLoad XsdPrefixes PyUrl Wsdl2Py PyService PyInterop PyModule
  SpecParse SpecRound SpecSoap SpecDispatch SpecHttp SpecClient SpecGenCode SpecGenWsdl SpecUrl SpecService SpecRegen SpecLoadable SpecReclass SpecExchange SpecModule SpecPeer PfPeer
  ExGenCode ExService ExInterop ExReclass ExModule ExPeer.
Import ListNotations.
Open Scope nat_scope.
Open Scope string_scope.
Open Scope list_scope.

(** ** C82 *)

(** A process with the generated client module, and nothing of the original code,
    calls an operation as one with the original classes and service does: the same
    request is posted, and the same object or error comes out of every answer. *)
Theorem C82_same_call_partial :
  forall sort n rt limit k O lim sl md5 checked U G rank s a sc doc root, list_sort sort -> 0 < n ->
  described rt limit k O lim sl md5 U G rank s a sc doc root -> client_regenerable s ->
  exists w m els g t,
    import_wsdl sort n rt limit (10 + k) O (lib_env lim) md5 checked false doc root = Ok w /\ wl_schemas w = [m] /\ regenerated (wl_state w) [els] s g /\
    assoc ((ws_name s ++ "Port") ++ "ServiceStub")%string (st_names (wl_state w)) = Some (WvStub t) /\ gt_service t = g /\
    forall W (S : service W) P cls (fns : string -> handler W), hosts O sl U s sc P S ->
    forall T (post : transport T) w op parameter, instance_of_schema sc parameter ->
    stub_call (with_module P limit sl m) (as_service g [0] cls fns) post w op parameter VNone = stub_call P S post w op parameter VNone.
Proof. exact client_talks. Qed.
Print Assumptions C82_same_call_partial.
(** So its calls of the running service run the functions of the service on equal
    parameters and return equal results. *)
Theorem C82_call_partial :
  forall sort n rt limit k O lim sl md5 checked U G rank s a sc doc root, list_sort sort -> 0 < n ->
  described rt limit k O lim sl md5 U G rank s a sc doc root -> client_regenerable s ->
  exists w m els g,
    import_wsdl sort n rt limit (10 + k) O (lib_env lim) md5 checked false doc root = Ok w /\ wl_schemas w = [m] /\ regenerated (wl_state w) [els] s g /\
    forall W (D : dispatcher W) P Q h base cls (fns : string -> handler W) op w x f tag parameter,
    hosts O sl U s sc P (d_service D) -> soap_platform P -> good_classes P Q -> plain D -> callable P Q D h base op x f tag parameter VNone -> instance_of_schema sc parameter ->
    let call := stub_call (with_module P limit sl m) (as_service g [0] cls fns) (post_through h P D base) w op parameter VNone in
    exists data rq', reaches_handler P D (new_request (seen h base (request_headers (ws_version s) (m_action x)) data) data) rq' f /\
      rq_method rq' = Some x /\ erase (rq_body rq') = erase parameter /\
      (forall w' rq2 r out, sv_fns (d_service D) f (w, rq') (rq_body rq') = ((w', rq2), Ok r) ->
         rq_method rq2 = Some x -> rs_body (as_response r) = PVal out -> rs_header (as_response r) = VNone -> returnable P Q D x out VNone ->
         exists out', call = (w', Ok (CReturned out' VNone)) /\ erase out' = erase out) /\
      (forall w' rq2 code msg actor, sv_fns (d_service D) f (w, rq') (rq_body rq') = ((w', rq2), Err (SOAPError code msg actor)) ->
         text_good code -> text_good msg ->
         (forall x, error_response (pf_n P) (pf_O P) (pf_E P) (ws_version s) code msg VNone None = Ok x -> transmits P x) ->
         call = (w', Ok (CRaised (VStr code) (VStr msg) VNone))).
Proof. exact client_calls. Qed.
Print Assumptions C82_call_partial.
Example C82_nonvacuous :
  described g_rt 20 4 ex_oracle 10 10 i_md5 p_U r_decls r_rank m_shop m_address m_schema p_doc (wire (xd_root p_doc)) /\ client_regenerable m_shop /\
  hosts ex_oracle 10 p_U m_shop m_schema p_P p_service /\ soap_platform p_P /\ good_classes p_P p_own /\ plain p_D /\
  (forall h z, z = 7%Z \/ z = 13%Z -> callable p_P p_own p_D h (fun _ => None) "place" p_place "place" "order" (p_order_of z) VNone /\ instance_of_schema m_schema (p_order_of z)) /\
  returnable p_P p_own p_D p_place p_parcel VNone /\
  (forall h, exists b, p_call false h 7 = Some (["place"; "Order"], Ok (CReturned b VNone)) /\ erase b = erase p_parcel) /\
  (forall h, p_call false h 13 = Some ([], Ok (CRaised (VStr "Server") (VStr "no luck") VNone))).
Proof.
  split; [exact p_described|]. split; [exact m_client|]. split; [exact p_hosts|]. split; [exists p_U, 10, 6; split; reflexivity|]. split; [exact p_rt_classes|]. split; [split; reflexivity|].
  split; [intros h z Hz; split; [now apply p_callable|apply p_made]|]. split; [exact p_returnable|]. split; intros h.
  - destruct h; eexists; (split; vm_compute; reflexivity).
  - destruct h; vm_compute; reflexivity.
Qed.

(** ** C83 *)

(** A process with the generated server module and the functions of the original
    service answers every request as the original service. *)
Theorem C83_same_answer_partial :
  forall sort n rt limit k O lim sl md5 checked U G rank s a sc doc root, list_sort sort -> 0 < n ->
  described rt limit k O lim sl md5 U G rank s a sc doc root -> server_regenerable s ->
  exists w m els g,
    import_wsdl sort n rt limit (10 + k) O (lib_env lim) md5 checked true doc root = Ok w /\ wl_schemas w = [m] /\ regenerated (wl_state w) [els] s g /\
    forall W (D : dispatcher W) P cls, hosts O sl U s sc P (d_service D) -> calls_by_name (d_service D) ->
    functions_answer sc (sv_fns (d_service D)) -> middlewares_answer sc (d_middlewares D) ->
    forall w rq, dispatch (with_module P limit sl m) (with_service D (as_service g [0] cls (sv_fns (d_service D)))) w rq = dispatch P D w rq.
Proof. exact server_talks. Qed.
Print Assumptions C83_same_answer_partial.
(** With the generated client on one side and the generated server on the other, a
    call is what it was between the original programs. *)
Theorem C83_both_partial :
  forall sort n rt limit k O lim sl md5 checked U G rank s a sc doc root, list_sort sort -> 0 < n ->
  described rt limit k O lim sl md5 U G rank s a sc doc root -> client_regenerable s -> server_regenerable s ->
  exists wc mc elc gc ws ms els gs,
    import_wsdl sort n rt limit (10 + k) O (lib_env lim) md5 checked false doc root = Ok wc /\ wl_schemas wc = [mc] /\ regenerated (wl_state wc) [elc] s gc /\
    import_wsdl sort n rt limit (10 + k) O (lib_env lim) md5 checked true doc root = Ok ws /\ wl_schemas ws = [ms] /\ regenerated (wl_state ws) [els] s gs /\
    forall W (D : dispatcher W) P cls (fns : string -> handler W), hosts O sl U s sc P (d_service D) -> calls_by_name (d_service D) ->
    functions_answer sc (sv_fns (d_service D)) -> middlewares_answer sc (d_middlewares D) ->
    forall h base w op parameter, instance_of_schema sc parameter ->
    stub_call (with_module P limit sl mc) (as_service gc [0] cls fns)
      (post_through h (with_module P limit sl ms) (with_service D (as_service gs [0] cls (sv_fns (d_service D)))) base) w op parameter VNone =
    stub_call P (d_service D) (post_through h P D base) w op parameter VNone.
Proof. exact both_talk. Qed.
Print Assumptions C83_both_partial.
Example C83_nonvacuous :
  described g_rt 20 4 ex_oracle 10 10 i_md5 p_U r_decls r_rank m_shop m_address m_schema p_doc (wire (xd_root p_doc)) /\ client_regenerable m_shop /\ server_regenerable m_shop /\
  hosts ex_oracle 10 p_U m_shop m_schema p_P (Dispatch.d_service p_D) /\ calls_by_name (Dispatch.d_service p_D) /\
  functions_answer m_schema (Dispatch.sv_fns (Dispatch.d_service p_D)) /\ middlewares_answer m_schema (Dispatch.d_middlewares p_D) /\
  (forall traceback, middlewares_answer m_schema [exception_to_fault p_P p_D traceback]) /\
  (forall h, exists b, p_call true h 7 = Some (["place"; "Order"], Ok (CReturned b VNone)) /\ erase b = erase p_parcel) /\
  (forall h, p_call true h 13 = Some ([], Ok (CRaised (VStr "Server") (VStr "no luck") VNone))).
Proof.
  split; [exact p_described|]. split; [exact m_client|]. split; [exact m_server|]. split; [exact p_hosts|]. split; [exact p_by_name|]. split; [exact p_functions|]. split; [constructor|].
  split. { intros tb. constructor; [|constructor]. intros s s' [v|[c t|c t a]] A; cbn; auto. destruct c; cbn; try exact I. destruct (negb _); exact I. }
  split; intros h.
  - destruct h; eexists; (split; vm_compute; reflexivity).
  - destruct h; vm_compute; reflexivity.
Qed.
