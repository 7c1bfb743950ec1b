(** The objects py2wsdl builds and what they render to. *)
From Coq Require Import String Ascii List ZArith NArith Bool Lia.
From Verif Require Import PyBase PfBase PyRe Xml PyVal XsdSimple XsdComplex PyHttp Soap Client Dispatch LibClasses Py2Xsd SpecXsd
  Py2Wsdl SpecFacets SpecGenWsdl PfSimple PfRender PfRender2 PfRound PfLeaf PfLib PfXsd PfXsd2.
Import ListNotations.
Open Scope string_scope.
Open Scope list_scope.
Open Scope nat_scope.

(** ** The objects *)
Section objects.
  (** [typed]: whether the lists that the generator assigns are typed ones, as they are
      in a document that was read. *)
  Variables (v : soapver) (typed : bool).
  Definition ob (c : string) (fs : list (string * pyval)) : pyval := VObj (wn v c) None fs.
  Definition o_doc (own before after : list (string * pyval)) : list (string * pyval) :=
    match v with
    | V11 => own ++ before ++ ("documentation", VNone) :: after
    | V12 => own ++ ("documentation", VNone) :: before ++ after
    end.
  Definition o_address (l : string) : pyval := ob "SOAP_Address" [("location", VStr l)].
  Definition o_port (name binding : string) (a : pyval) : pyval :=
    ob "Port" [("name", VStr name); ("binding", VStr binding); ("documentation", VNone); ("address", a)].
  Definition o_service (name : string) (ports : list pyval) : pyval :=
    ob "Service" (o_doc [("name", VStr name)] [("ports", VList true ports)] []).
  Definition o_body : pyval := ob "SOAP_Body" [("parts", VNone); ("use", VStr "literal"); ("namespace", VNone); ("encodingStyle", VNone)].
  Definition o_io (c : string) (msg : option string) (body : pyval) : pyval :=
    ob c [("name", VNone); ("message", vs msg); ("documentation", VNone); ("body", body); ("headers", VList true [])].
  Definition o_sop (action style : string) : pyval :=
    ob "SOAP_Operation" ([("soapAction", VStr action); ("style", VStr style)] ++
                         match v with V11 => [] | V12 => [("soapActionRequired", VNone)] end).
  Definition o_op (name : string) (i o sop : pyval) : pyval :=
    ob "Operation" (o_doc [("name", VStr name)] [("input", i); ("output", o); ("faults", VList true [])] [("operation", sop)]).
  Definition o_sbinding : pyval := ob "SOAP_Binding" [("style", VStr "document"); ("transport", VStr ns_soap_http)].
  Definition o_binding (name type : string) (ops : list pyval) : pyval :=
    ob "Binding" (o_doc [("name", VStr name); ("type", VStr type)] [("operations", VList true ops)] [("binding", o_sbinding)]).
  Definition o_portType (name : string) (ops : list pyval) : pyval :=
    ob "PortType" (o_doc [("name", VStr name)] [("operations", VList true ops)] []).
  Definition o_part (e t : option string) : pyval := ob "Part" [("name", VStr "body"); ("element", vs e); ("type", vs t)].
  Definition o_message (name : string) (part : pyval) : pyval :=
    ob "Message" (o_doc [("name", VStr name)] [("parts", VList typed [part])] []).
  Definition o_types (schemas : list pyval) : pyval := ob "Types" [("schemas", VList typed schemas); ("documentation", VNone)].
  Definition o_defs (tns : string) (types : pyval) (messages portTypes bindings services : list pyval) : pyval :=
    ob "Definitions" (o_doc [("name", VNone); ("targetNamespace", VStr tns)]
       [("imports", VList true []); ("types", types); ("messages", VList true messages); ("portTypes", VList true portTypes);
        ("bindings", VList true bindings); ("services", VList true services)] []).

  Definition bound_op (m : wmethod) : pyval :=
    o_op (wm_op m) (o_io "Input" None o_body) (o_io "Output" None o_body) (o_sop (wm_action m) (wm_style m)).
  Definition pt_op (m : wmethod) : pyval :=
    o_op (wm_op m) (o_io "Input" (Some ("tns:" ++ wm_op m ++ "Input")%string) VNone)
                   (o_io "Output" (Some ("tns:" ++ wm_op m ++ "Output")%string) VNone) VNone.
  Definition io_part (io : iospec) : pyval :=
    match io with
    | IOName e => o_part (Some ("sns:" ++ e)%string) None
    | IOClass c => o_part None (Some ("sns:" ++ type_name c)%string)
    | IONone => o_part None None
    end.
  Definition msgs (m : wmethod) : list pyval :=
    [o_message (wm_op m ++ "Input") (io_part (wm_in m)); o_message (wm_op m ++ "Output") (io_part (wm_out m))].
End objects.

(** ** Building them *)
Section build.
  Variables (O : oracle) (lim : nat) (v : soapver).
  Local Notation L := (lib_env lim).

  Lemma port_ok name location :
    (port <- construct O L (wn v "Port") [] ;;
     port <- py_set O L port "name" (VStr (name ++ "Port")) ;;
     port <- py_set O L port "binding" (VStr ("tns:" ++ name ++ "Binding")) ;;
     address <- construct O L (wn v "SOAP_Address") [("location", VStr location)] ;;
     py_set O L port "address" address) = Ok (o_port v (name ++ "Port") ("tns:" ++ name ++ "Binding") (o_address v location)).
  Proof. destruct v; vm_compute; reflexivity. Qed.
  Lemma build_service_ok s tns ty ms ps bs ss :
    build_service O L v s (o_defs v tns ty ms ps bs ss) =
    Ok (o_defs v tns ty ms ps bs (ss ++ [o_service v (ws_name s) [o_port v (ws_name s ++ "Port") ("tns:" ++ ws_name s ++ "Binding") (o_address v (ws_location s))]])).
  Proof. destruct v; vm_compute; reflexivity. Qed.

  Lemma binding_operation_ok m : wm_style m = "document" \/ wm_style m = "rpc" -> binding_operation O L v m = Ok (bound_op v m).
  Proof. destruct m as [op a i o st]. cbn [wm_style]. intros [-> | ->]; destruct v; vm_compute; reflexivity. Qed.
  Lemma binding_append name ty ops m : py_append O L (o_binding v name ty ops) "operations" (bound_op v m) =
    Ok (o_binding v name ty (ops ++ [bound_op v m])).
  Proof. destruct v; vm_compute; reflexivity. Qed.
  Lemma defs_binding tns ty ms ps bs ss name t ops : py_append O L (o_defs v tns ty ms ps bs ss) "bindings" (o_binding v name t ops) =
    Ok (o_defs v tns ty ms ps (bs ++ [o_binding v name t ops]) ss).
  Proof. destruct v; vm_compute; reflexivity. Qed.
  Lemma binding_new name (k : pyval -> res pyval) :
    (binding <- construct O L (wn v "Binding") [] ;;
     binding <- py_set O L binding "name" (VStr (name ++ "Binding")) ;;
     binding <- py_set O L binding "type" (VStr ("tns:" ++ name ++ "PortType")) ;;
     sb <- construct O L (wn v "SOAP_Binding") [] ;;
     binding <- py_set O L binding "binding" sb ;;
     binding <- py_set_in O L binding "binding" "style" (VStr "document") ;;
     binding <- py_set_in O L binding "binding" "transport" (VStr ns_soap_http) ;; k binding) =
    k (o_binding v (name ++ "Binding") ("tns:" ++ name ++ "PortType") []).
  Proof. destruct v; vm_compute; reflexivity. Qed.
  Lemma append_all {A} name (mk : list pyval -> pyval) (step : A -> res pyval) (obj : A -> pyval) (P : A -> Prop) :
    (forall a, P a -> step a = Ok (obj a)) ->
    (forall acc a, P a -> py_append O L (mk acc) name (obj a) = Ok (mk (acc ++ [obj a]))) ->
    forall l acc, Forall P l -> foldM (fun b a => o <- step a ;; py_append O L b name o) (mk acc) l = Ok (mk (acc ++ map obj l)).
  Proof.
    intros S A1. induction l as [|a l IH]; intros acc F; cbn [foldM map]; [now rewrite app_nil_r|].
    apply Forall_cons_iff in F as [Pa F]. rewrite S by assumption. cbn [bind]. rewrite A1 by assumption. cbn [bind].
    rewrite IH by assumption. now rewrite <- app_assoc.
  Qed.
  Lemma build_bindings_ok s tns ty ms ps bs ss : Forall method_describable (ws_methods s) ->
    build_bindings O L v s (o_defs v tns ty ms ps bs ss) =
    Ok (o_defs v tns ty ms ps (bs ++ [o_binding v (ws_name s ++ "Binding") ("tns:" ++ ws_name s ++ "PortType") (map (bound_op v) (ws_methods s))]) ss).
  Proof.
    intros F. unfold build_bindings.
    assert (A1 : foldM (fun b m => op <- binding_operation O L v m ;; py_append O L b "operations" op)
       (o_binding v (ws_name s ++ "Binding") ("tns:" ++ ws_name s ++ "PortType") []) (ws_methods s) =
       Ok (o_binding v (ws_name s ++ "Binding") ("tns:" ++ ws_name s ++ "PortType") (map (bound_op v) (ws_methods s)))).
    { refine (append_all "operations" (o_binding v _ _) (binding_operation O L v) (bound_op v) method_describable _ _ (ws_methods s) [] F).
      - intros m (_ & _ & _ & _ & H). now apply binding_operation_ok.
      - intros acc m _. apply binding_append. }
    rewrite binding_new, A1. cbn [bind]. apply defs_binding.
  Qed.

  Lemma portType_operation_ok m : portType_operation O L v m = Ok (pt_op v m).
  Proof. destruct v; vm_compute; reflexivity. Qed.
  Lemma portType_append name ops m : py_append O L (o_portType v name ops) "operations" (pt_op v m) = Ok (o_portType v name (ops ++ [pt_op v m])).
  Proof. destruct v; vm_compute; reflexivity. Qed.
  Lemma portType_new name (k : pyval -> res pyval) :
    (pt <- construct O L (wn v "PortType") [] ;; pt <- py_set O L pt "name" (VStr name) ;; k pt) = k (o_portType v name []).
  Proof. destruct v; vm_compute; reflexivity. Qed.
  Lemma defs_portType tns ty ms ps bs ss name ops : py_append O L (o_defs v tns ty ms ps bs ss) "portTypes" (o_portType v name ops) =
    Ok (o_defs v tns ty ms (ps ++ [o_portType v name ops]) bs ss).
  Proof. destruct v; vm_compute; reflexivity. Qed.
  Lemma build_portTypes_ok s tns ty ms ps bs ss :
    build_portTypes O L v s (o_defs v tns ty ms ps bs ss) =
    Ok (o_defs v tns ty ms (ps ++ [o_portType v (ws_name s ++ "PortType") (map (pt_op v) (ws_methods s))]) bs ss).
  Proof.
    unfold build_portTypes. rewrite portType_new.
    pose proof (append_all "operations" (o_portType v (ws_name s ++ "PortType")) (portType_operation O L v) (pt_op v) (fun _ => True)
      (fun m _ => portType_operation_ok m) (fun acc m _ => portType_append _ _ _) (ws_methods s) []) as A1.
    rewrite A1 by (apply Forall_forall; trivial). cbn [bind]. apply defs_portType.
  Qed.

  Lemma message_ok name io : io_describable io -> message O L v name io = Ok (o_message v false name (io_part v io)).
  Proof.
    intros H. unfold message. destruct io as [|e|c]; cbn [io_describable] in H; [destruct H| |].
    - destruct v; vm_compute; reflexivity.
    - rewrite uncapitalize_name by apply H. cbn [io_part]. generalize (type_name c). intros n. destruct v; vm_compute; reflexivity.
  Qed.
  Lemma defs_message tns ty ms ps bs ss name p : py_append O L (o_defs v tns ty ms ps bs ss) "messages" (o_message v false name p) =
    Ok (o_defs v tns ty (ms ++ [o_message v false name p]) ps bs ss).
  Proof. destruct v; vm_compute; reflexivity. Qed.
  Lemma build_messages_ok s tns ty ps bs ss : Forall method_describable (ws_methods s) -> forall ms,
    build_messages O L v s (o_defs v tns ty ms ps bs ss) = Ok (o_defs v tns ty (ms ++ flat_map (msgs v false) (ws_methods s)) ps bs ss).
  Proof.
    unfold build_messages. induction 1 as [|m l (_ & _ & Hi & Ho & _) _ IH]; intros ms; cbn [foldM flat_map]; [now rewrite app_nil_r|].
    rewrite message_ok by assumption. cbn [bind]. rewrite defs_message. cbn [bind]. rewrite message_ok by assumption. cbn [bind].
    rewrite defs_message. cbn [bind]. rewrite IH. unfold msgs at 2. rewrite <- !app_assoc. reflexivity.
  Qed.

  Lemma types_ok schemas : construct O L (wn v "Types") [("schemas", VList false schemas)] = Ok (o_types v false schemas).
  Proof. destruct v; vm_compute; reflexivity. Qed.
  Lemma defs_types tns schemas : py_set O L (o_defs v tns VNone [] [] [] []) "types" (o_types v false schemas) = Ok (o_defs v tns (o_types v false schemas) [] [] [] []).
  Proof. destruct v; vm_compute; reflexivity. Qed.
  Lemma defs_new tns : construct O L (wn v "Definitions") [("targetNamespace", VStr tns)] = Ok (o_defs v tns VNone [] [] [] []).
  Proof. destruct v; vm_compute; reflexivity. Qed.

  Definition defs_of (typed : bool) (s : wservice) (schemas : list pyval) : pyval :=
    o_defs v (ws_tns s) (o_types v typed schemas) (flat_map (msgs v typed) (ws_methods s))
      [o_portType v (ws_name s ++ "PortType") (map (pt_op v) (ws_methods s))]
      [o_binding v (ws_name s ++ "Binding") ("tns:" ++ ws_name s ++ "PortType") (map (bound_op v) (ws_methods s))]
      [o_service v (ws_name s) [o_port v (ws_name s ++ "Port") ("tns:" ++ ws_name s ++ "Binding") (o_address v (ws_location s))]].
  Lemma build_ok E G s schemas : Forall method_describable (ws_methods s) ->
    mapM (generate_xsdspec O L E G) (ws_schemas s) = Ok schemas ->
    build_definitions O L v E G s = Ok (defs_of false s schemas).
  Proof.
    intros F M. unfold build_definitions. rewrite defs_new. cbn [bind]. unfold build_types at 1. rewrite M. cbn [bind].
    rewrite types_ok. cbn [bind]. rewrite defs_types. cbn [bind]. rewrite build_service_ok. cbn [bind].
    rewrite build_bindings_ok by assumption. cbn [bind]. rewrite build_portTypes_ok. cbn [bind].
    rewrite build_messages_ok by assumption. reflexivity.
  Qed.
End build.
