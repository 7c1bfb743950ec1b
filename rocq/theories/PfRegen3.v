(** Proofs about services generated from the WSDL document of a service (C76, C77): the results. *)
From Coq Require Import String Ascii List ZArith NArith Bool Lia.
From Verif Require Import PyBase PfBase Xml PyVal XsdSimple XsdComplex XsdSchema PyHttp Soap Dispatch Client LibClasses Py2Xsd SpecXsd Py2Wsdl Wsdl2Py PyLoad PyService PyInterop
  SpecParse SpecRound SpecNames SpecGenCode SpecGenWsdl SpecSoap SpecDispatch SpecHttp SpecClient SpecUrl SpecService SpecRegen
  PfXsd PfXsd2 PfGenWsdl PfGenWsdl2 PfGenWsdl3 PfGenWsdl4 PfGenWsdl6 PfClient3 PfService PfService2 PfService3 PfService4 PfService5 PfInterop PfRegen PfRegen2.
Import Dispatch ListNotations.
Open Scope nat_scope.
Open Scope string_scope.
Open Scope list_scope.

Lemma regen_client_code :
  forall O lim E G k md5 checked rt base s a doc root els st,
  service_describable O E G s -> referable s -> service_regenerable s a -> client_regenerable s ->
  generate_wsdl (10 + k) O (lib_env lim) E G s = Ok doc -> layout (wire (xd_root doc)) root ->
  (forall sc, In sc (ws_schemas s) -> hex5 (md5 (gs_tns sc))) -> schemas_bound md5 st (map gs_tns (ws_schemas s)) els ->
  exists code st' g t, code_from_wsdl (10 + k) O (lib_env lim) md5 checked false root = Ok code /\ exec_service rt base st code = Ok st' /\
    regenerated st' els s g /\
    assoc ((ws_name s ++ "Port") ++ "ServiceStub")%string (st_names st') = Some (WvStub t) /\ gt_service t = g /\
    stub_posts_to t = Ok (ws_location s) /\
    (forall m, In m (ws_methods s) -> callable_name (wm_op m) -> ~ In "call" (map wm_op (ws_methods s)) -> stub_operation t (wm_op m) = Some (wm_op m)).
Proof.
  intros O lim E G k md5 checked rt base s a doc root els st Hd Hr Hg Hc Hw Hl Hh Hb.
  destruct (regen_read O lim E G k s a doc root Hd Hr Hg Hw Hl) as (d & P & St).
  pose proof (regen_usable O E G s a Hd Hr Hg) as Hu. pose proof (regen_client s a Hg Hc) as Hcl.
  assert (Hso : false = true -> Forall (fun p => Forall server_op (po_ops p)) (soap_ports [[Some (plan_of s a)]]) /\ soap_first [[Some (plan_of s a)]]) by discriminate.
  assert (Ht : quotable (ws_tns s)) by apply Hg.
  assert (Hh' : forall x, In x (map gs_tns (ws_schemas s)) -> hex5 (md5 x)). { intros x I. apply in_map_iff in I as (sc & <- & I). now apply Hh. }
  assert (I : In (plan_of s a) (soap_ports [[Some (plan_of s a)]])) by now left.
  pose proof (regen_version O lim E G k s doc root Hd Hw Hl) as V.
  eexists _, _, _, _. split. { unfold code_from_wsdl. rewrite P. cbn [bind]. exact (document_code md5 checked false (version_from_xml root) d (ws_tns s) (map gs_tns (ws_schemas s)) [[Some (plan_of s a)]] St Hu Hso). }
  split. { exact (document_run md5 false (version_from_xml root) (ws_tns s) (map gs_tns (ws_schemas s)) [[Some (plan_of s a)]] Hu Hso rt base els st Ht Hh' Hb (fun _ => Hcl)). }
  split. { split; [exact (service_held false _ _ _ Hso els st (fun _ => Hcl) (regen_names s a) _ I)|]. split; [reflexivity|]. split; [reflexivity|]. split; [exact V|]. split; [reflexivity|]. now apply (regen_same s a). }
  split; [exact (stub_held false _ _ _ Hso els st (fun _ => Hcl) (regen_names s a) _ eq_refl I)|]. split; [reflexivity|].
  split. { pose proof Hg as (_ & _ & -> & _). apply (plan_posts_to _ _ _ (plan_of s a)). rewrite Forall_forall in Hu. now apply Hu. }
  intros m Im Cm Nc. change (wm_op m) with (op_name (plan_op m)). apply plan_operation; [now apply (in_map plan_op)|exact Cm|]. cbn [plan_of po_ops]. rewrite map_map. exact Nc.
Qed.
Lemma regen_server_code :
  forall O lim E G k md5 checked rt base s a doc root els st,
  service_describable O E G s -> referable s -> service_regenerable s a -> server_regenerable s ->
  generate_wsdl (10 + k) O (lib_env lim) E G s = Ok doc -> layout (wire (xd_root doc)) root ->
  (forall sc, In sc (ws_schemas s) -> hex5 (md5 (gs_tns sc))) -> schemas_bound md5 st (map gs_tns (ws_schemas s)) els ->
  exists code st' g, code_from_wsdl (10 + k) O (lib_env lim) md5 checked true root = Ok code /\ exec_service rt base st code = Ok st' /\
    regenerated st' els s g /\ Forall2 calls_function (ws_methods s) (gv_methods g).
Proof.
  intros O lim E G k md5 checked rt base s a doc root els st Hd Hr Hg Hc Hw Hl Hh Hb.
  destruct (regen_read O lim E G k s a doc root Hd Hr Hg Hw Hl) as (d & P & St).
  pose proof (regen_usable O E G s a Hd Hr Hg) as Hu.
  assert (Hso : true = true -> Forall (fun p => Forall server_op (po_ops p)) (soap_ports [[Some (plan_of s a)]]) /\ soap_first [[Some (plan_of s a)]]) by (intros _; now apply (regen_server s a)).
  assert (Hcl : true = false -> Forall (fun p => Forall client_op (po_ops p)) (soap_ports [[Some (plan_of s a)]])) by discriminate.
  assert (Ht : quotable (ws_tns s)) by apply Hg.
  assert (Hh' : forall x, In x (map gs_tns (ws_schemas s)) -> hex5 (md5 x)). { intros x I. apply in_map_iff in I as (sc & <- & I). now apply Hh. }
  assert (I : In (plan_of s a) (soap_ports [[Some (plan_of s a)]])) by now left.
  pose proof (regen_version O lim E G k s doc root Hd Hw Hl) as V.
  eexists _, _, _. split. { unfold code_from_wsdl. rewrite P. cbn [bind]. exact (document_code md5 checked true (version_from_xml root) d (ws_tns s) (map gs_tns (ws_schemas s)) [[Some (plan_of s a)]] St Hu Hso). }
  split. { exact (document_run md5 true (version_from_xml root) (ws_tns s) (map gs_tns (ws_schemas s)) [[Some (plan_of s a)]] Hu Hso rt base els st Ht Hh' Hb Hcl). }
  split. { split; [exact (service_held true _ _ _ Hso els st Hcl (regen_names s a) _ I)|]. split; [reflexivity|]. split; [reflexivity|]. split; [exact V|]. split; [reflexivity|]. now apply (regen_same s a). }
  exact (regen_functions s a Hg).
Qed.

(** ** Calling the service itself *)
Lemma same_stub_call :
  forall s g st els W (S : service W), regenerated st els s g -> runs s S -> headerless S ->
  forall (T : Type) P cls (fns : string -> handler W) (post : transport T) w op parameter header,
  stub_call P (as_service g (sv_schemas S) cls fns) post w op parameter header = stub_call P S post w op parameter header.
Proof.
  intros s g st els W S (_ & _ & _ & Ev & _ & Fm) (Sv & Fs) Hl T P cls fns post w op parameter header.
  assert (X : forall ws gs ms, Forall2 same_method ws gs ->
      Forall2 (fun w m => m_op m = wm_op w /\ m_action m = wm_action w /\ m_in m = wm_in w /\ m_out m = wm_out w) ws ms ->
      Forall (fun m => m_ih m = None /\ m_oh m = None) ms ->
      match get_method (map (as_method cls) gs) op, get_method ms op with
      | Ok m1, Ok m2 => m_op m1 = m_op m2 /\ m_action m1 = m_action m2 /\ m_in m1 = m_in m2 /\ m_out m1 = m_out m2 /\ m_ih m1 = m_ih m2 /\ m_oh m1 = m_oh m2
      | Err e1, Err e2 => e1 = e2
      | _, _ => False
      end).
  { intros ws gs ms F1. revert ms. induction F1 as [|w0 g0 ws gs (A1 & A2 & A3 & A4 & _ & A6 & A7) F1 IH]; intros ms F2 F3.
    - inversion F2; subst. reflexivity.
    - inversion F2 as [|? m0 ? ms0 (B1 & B2 & B3 & B4) F2']; subst. inversion F3 as [|? ? (C1 & C2) F3']; subst. specialize (IH ms0 F2' F3').
      unfold get_method in *. cbn [map find]. change (m_op (as_method cls g0)) with (gm_op g0). rewrite A1, B1. destruct (String.eqb (wm_op w0) op); [|exact IH].
      unfold as_method. cbn [m_op m_action m_in m_out m_ih m_oh]. rewrite A1, A2, A3, A4, A6, A7. cbn [option_map]. repeat split; congruence. }
  specialize (X _ _ _ Fm Fs Hl). unfold stub_call. cbn [as_service sv_methods].
  destruct (get_method (map (as_method cls) (gv_methods g)) op) as [m1|e1], (get_method (sv_methods S) op) as [m2|e2]; try contradiction; [|now rewrite X].
  destruct X as (X1 & X2 & X3 & X4 & X5 & X6). unfold stub_request, request_tag, handle_response, output_type. cbn [as_service sv_version sv_schemas].
  rewrite Ev, Sv, X2, X3, X4, X6. reflexivity.
Qed.
Lemma regen_call :
  forall s g st els (W : Type) P Q (D : dispatcher W) a base cls (fns : string -> handler W) op w m f tag parameter header,
  regenerated st els s g -> runs s (d_service D) -> headerless (d_service D) ->
  soap_platform P -> good_classes P Q -> plain D -> callable P Q D a base op m f tag parameter header ->
  let call := stub_call P (as_service g (sv_schemas (d_service D)) cls fns) (post_through a P D base) w op parameter header in
  exists data rq', reaches_handler P D (new_request (seen a base (request_headers (ws_version s) (m_action m)) data) data) rq' f /\
    rq_method rq' = Some m /\ erase (rq_body rq') = erase parameter /\
    (forall w' rq2 r out, sv_fns (d_service D) f (w, rq') (rq_body rq') = ((w', rq2), Ok r) ->
       rq_method rq2 = Some m -> rs_body (as_response r) = PVal out -> rs_header (as_response r) = VNone -> returnable P Q D m out VNone ->
       exists out', call = (w', Ok (CReturned out' VNone)) /\ erase out' = erase out) /\
    (forall w' rq2 code msg actor, sv_fns (d_service D) f (w, rq') (rq_body rq') = ((w', rq2), Err (SOAPError code msg actor)) ->
       text_good code -> text_good msg ->
       (forall x, error_response (pf_n P) (pf_O P) (pf_E P) (ws_version s) code msg VNone None = Ok x -> transmits P x) ->
       call = (w', Ok (CRaised (VStr code) (VStr msg) VNone))).
Proof.
  intros s g st els W P Q D a base cls fns op w m f tag parameter header Hg Hr Hh SP GC PD C call.
  pose proof (same_stub_call s g st els W (d_service D) Hg Hr Hh W P cls fns (post_through a P D base) w op parameter header) as Sc. fold call in Sc. rewrite Sc. clear Sc call.
  destruct (call_works P Q D a base op w m f tag parameter header SP GC PD C) as (data & rq' & R & Rm & Rb & Rh & Ret & Flt).
  assert (Im : In m (sv_methods (d_service D))). { destruct C as [(l1 & l2 & -> & _) _ _ _ _ _ _ _]. apply in_elt. }
  unfold headerless in Hh. rewrite Forall_forall in Hh. destruct (Hh m Im) as (Hi & Ho). destruct Hr as (Sv & _). rewrite Sv in R, Flt.
  exists data, rq'. split; [exact R|]. split; [exact Rm|]. split; [exact Rb|]. split.
  - intros w' rq2 r out Hf Hm Hb Hhd Hret. destruct (Ret w' rq2 r out VNone Hf Hm Hb Hhd Hret) as (out' & hout' & St & Eout & Hro). exists out'. split; [|exact Eout].
    rewrite St. unfold header_received in Hro. rewrite Ho in Hro. now rewrite Hro.
  - intros w' rq2 code msg actor Hf G1 G2 Tr. apply (Flt w' rq2 (Err (SOAPError code msg actor)) code msg actor VNone Hf); auto. now left.
Qed.
