(** Rendering the objects py2wsdl builds. *)
From Coq Require Import String Ascii List ZArith NArith Bool Lia.
From Verif Require Import PyBase PfBase PyRe Xml PyVal XsdSimple XsdComplex PyHttp Soap Client Dispatch LibClasses Py2Xsd SpecXsd
  Py2Wsdl SpecFacets SpecGenWsdl PfSimple PfRender PfRender2 PfRound PfLeaf PfLib PfXsd PfXsd2 PfGenWsdl.
Import ListNotations.
Open Scope string_scope.
Open Scope list_scope.
Open Scope nat_scope.

Definition ns_w : option string := Some ns_wsdl.
Lemma no_brace_wsdl : ~ In "}"%char (to_l ns_wsdl).
Proof. vm_compute. intuition discriminate. Qed.
Lemma no_brace_binding v : ~ In "}"%char (to_l (binding_ns v)).
Proof. destruct v; vm_compute; intuition discriminate. Qed.
Lemma binding_ns_ne v : binding_ns v <> "".
Proof. destruct v; discriminate. Qed.

(** An attribute of type String (or a restriction of it) that is present or absent. *)
Lemma adds_opt_attr O E rec ns efd f o : f_kind f = KAttribute -> f_tag f = None -> ncname_ok (f_name f) = true ->
  f_min f = Some 0%Z -> (exists s, f_type f = TSimple s /\ forall x, st_xmlvalue O s (VStr x) = Ok (VStr x)) -> text_opt o ->
  adds O E rec ns efd f (vs o) (opt_attr (f_name f) o, []).
Proof.
  intros K T N M (s & Ty & X) To. destruct o as [x|]; [|now apply adds_attr_none].
  cbn [vs opt_attr]. eapply adds_attr; try eassumption; try discriminate; [apply X|now apply To].
Qed.

Definition pts := list (list (string * string) * list node).
(** The parts of a class with a documentation field. *)
Definition p_doc (v : soapver) (own before after : pts) : pts :=
  match v with V11 => own ++ before ++ ([], []) :: after | V12 => own ++ ([], []) :: before ++ after end.

Section render.
  Variables (O : oracle) (lim : nat).
  Local Notation L := (lib_env lim).
  Local Notation r v n c t o ns := (render_obj n O L (wn v c) (Elem t [] []) o ns efd_q).

  Ltac attr := solve [eapply adds_attr; try reflexivity; first [discriminate|assumption]].
  Ltac oattr := solve [apply adds_opt_attr; try reflexivity; [eexists; split; reflexivity|assumption]].
  Ltac noattr := now apply adds_attr_none.
  Ltac noelem := now apply adds_elem_none.
  Ltac nolist n := eapply adds_list with (n' := n); try reflexivity; try discriminate;
    [right; reflexivity|first [exact no_brace_wsdl|apply (no_brace_binding V11)|apply (no_brace_binding V12)]|constructor].
  Ltac parts p := eapply eq_trans; [eapply render_parts with (parts := (p : pts)); [vm_compute; reflexivity|reflexivity|reflexivity| |]|].
  Ltac nodup := cbn; repeat constructor; cbn; intuition discriminate.

  Lemma render_address v n t ns l : text l -> r v (S n) "SOAP_Address" t (o_address v l) ns = Ok (Elem t [("location", l)] []).
  Proof. intros H. destruct v; (parts [([("location", l)], @nil node)]; [cbn [cd_fields]; parts_goal; attr|nodup|reflexivity]). Qed.
  Lemma render_body v n t ns : r v (S n) "SOAP_Body" t (o_body v) ns = Ok (Elem t [("use", "literal")] []).
  Proof.
    destruct v; (parts [([], []); ([("use", "literal")], @nil node); ([], []); ([], [])];
     [cbn [cd_fields]; parts_goal; [noattr|attr|noattr|noattr]|nodup|reflexivity]).
  Qed.
  Lemma render_sbinding v n t ns : r v (S n) "SOAP_Binding" t (o_sbinding v) ns = Ok (Elem t [("style", "document"); ("transport", ns_soap_http)] []).
  Proof.
    destruct v; (parts [([("style", "document")], @nil node); ([("transport", ns_soap_http)], [])];
     [cbn [cd_fields]; parts_goal; attr|nodup|reflexivity]).
  Qed.
  Lemma render_sop v n t ns a st : text a -> text st -> r v (S n) "SOAP_Operation" t (o_sop v a st) ns = Ok (Elem t [("soapAction", a); ("style", st)] []).
  Proof.
    intros Ha Hs. destruct v.
    - parts [([("soapAction", a)], @nil node); ([("style", st)], [])]; [cbn [cd_fields]; parts_goal; attr|nodup|reflexivity].
    - parts [([("soapAction", a)], @nil node); ([("style", st)], []); ([], [])];
      [cbn [cd_fields]; parts_goal; [attr|attr|noattr]|nodup|reflexivity].
  Qed.
  Lemma render_port v n t ns name b l : text name -> text b -> text l ->
    r v (S (S n)) "Port" t (o_port v name b (o_address v l)) ns = Ok (Elem t [("name", name); ("binding", b)] [soap_el v "address" [("location", l)]]).
  Proof.
    intros Hn Hb Hl. destruct v.
    - parts [([("name", name)], []); ([("binding", b)], []); ([], []); ([], [soap_el V11 "address" [("location", l)]])];
      [cbn [cd_fields]; parts_goal; [attr|attr|noelem|]|nodup|reflexivity].
      eapply adds_elem with (n' := binding_ns V11); try reflexivity; try discriminate; [apply no_brace_binding|].
      apply (render_address V11); assumption.
    - parts [([("name", name)], []); ([("binding", b)], []); ([], []); ([], [soap_el V12 "address" [("location", l)]])];
      [cbn [cd_fields]; parts_goal; [attr|attr|noelem|]|nodup|reflexivity].
      eapply adds_elem with (n' := binding_ns V12); try reflexivity; try discriminate; [apply no_brace_binding|].
      apply (render_address V12); assumption.
  Qed.
  Lemma render_part v n t ns e ty : text_opt e -> text_opt ty ->
    r v (S n) "Part" t (o_part v e ty) ns = Ok (Elem t (("name", "body") :: opt_attr "element" e ++ opt_attr "type" ty) []).
  Proof.
    intros He Ht. destruct v; (parts [([("name", "body")], @nil node); (opt_attr "element" e, []); (opt_attr "type" ty, [])];
      [cbn [cd_fields]; parts_goal; [attr|oattr|oattr]|destruct e, ty; nodup|cbn [flat_map fst snd app]; now rewrite app_nil_r]).
  Qed.

  (** A list of objects of one class in the WSDL namespace. *)
  Definition wrendered (v : soapver) (n : nat) (cls tag : string) (objs : list pyval) (out : list node) : Prop :=
    Forall2 (fun o x => o <> VNil /\ r v n cls (clark ns_wsdl tag) o ns_w = Ok x) objs out.
  Ltac wlist := eapply adds_list with (n' := ns_wsdl); try reflexivity; try discriminate; [right; reflexivity|exact no_brace_wsdl|eassumption].

  (** The body of an input or output: absent, or a SOAP body. *)
  Definition body_nodes (v : soapver) (b : bool) : list node := if b then [soap_el v "body" [("use", "literal")]] else [].
  Definition body_obj (v : soapver) (b : bool) : pyval := if b then o_body v else VNone.
  Lemma adds_body v n b f : f = fe "body" (w_t v "SOAP_Body") 1 (Some (binding_ns v)) ->
    adds O L (render_obj (S n) O L) ns_w efd_q f (body_obj v b) ([], body_nodes v b).
  Proof.
    intros ->. destruct b; [|noelem].
    eapply adds_elem with (n' := binding_ns v); try reflexivity; try discriminate; [apply binding_ns_ne|apply no_brace_binding|].
    apply render_body.
  Qed.
  Lemma render_io v n c t ns msg b : c = "Input" \/ c = "Output" -> text_opt msg ->
    r v (S (S n)) c t (o_io v c msg (body_obj v b)) ns = Ok (Elem t (opt_attr "message" msg) (body_nodes v b)).
  Proof.
    intros Hc Hm. destruct v.
    - destruct Hc as [-> | ->];
      (parts [([], []); (opt_attr "message" msg, []); ([], []); ([], body_nodes V11 b); ([], [])];
       [cbn [cd_fields]; parts_goal; [noattr|oattr|noelem|now apply adds_body|nolist (binding_ns V11)]|destruct msg; nodup
       |cbn [flat_map fst snd app]; now rewrite !app_nil_r]).
    - destruct Hc as [-> | ->];
      (parts [([], []); (opt_attr "message" msg, []); ([], []); ([], body_nodes V12 b); ([], [])];
       [cbn [cd_fields]; parts_goal; [noattr|oattr|noelem|now apply adds_body|nolist (binding_ns V12)]|destruct msg; nodup
       |cbn [flat_map fst snd app]; now rewrite !app_nil_r]).
  Qed.

  Definition sop_obj (v : soapver) (p : option (string * string)) : pyval := match p with Some (a, st) => o_sop v a st | None => VNone end.
  Definition sop_nodes (v : soapver) (p : option (string * string)) : list node :=
    match p with Some (a, st) => [soap_el v "operation" [("soapAction", a); ("style", st)]] | None => [] end.
  Lemma adds_sop v n p f : f = fe "operation" (w_t v "SOAP_Operation") 0 (Some (binding_ns v)) ->
    (forall a st, p = Some (a, st) -> text a /\ text st) ->
    adds O L (render_obj (S n) O L) ns_w efd_q f (sop_obj v p) ([], sop_nodes v p).
  Proof.
    intros -> Hp. destruct p as [[a st]|]; [|noelem].
    eapply adds_elem with (n' := binding_ns v); try reflexivity; try discriminate; [apply binding_ns_ne|apply no_brace_binding|].
    apply render_sop; now apply (Hp a st).
  Qed.
  Definition io_node (v : soapver) (tag : string) (m : option string) (b : bool) : node :=
    wel tag (opt_attr "message" m) (body_nodes v b).
  Lemma adds_io v n c tag m b f : f = fe tag (w_t v c) 0 None -> c = "Input" /\ tag = "input" \/ c = "Output" /\ tag = "output" ->
    text_opt m ->
    adds O L (render_obj (S (S n)) O L) ns_w efd_q f (o_io v c m (body_obj v b)) ([], [io_node v tag m b]).
  Proof.
    intros -> Hc Hm. destruct Hc as [[-> ->] | [-> ->]];
    (eapply adds_elem with (n' := ns_wsdl); try reflexivity; try discriminate; [exact no_brace_wsdl|apply render_io; auto]).
  Qed.
  Lemma render_op v n t ns name mi mo b p : text name -> text_opt mi -> text_opt mo ->
    (forall a st, p = Some (a, st) -> text a /\ text st) ->
    r v (S (S (S n))) "Operation" t (o_op v name (o_io v "Input" mi (body_obj v b)) (o_io v "Output" mo (body_obj v b)) (sop_obj v p)) ns =
    Ok (Elem t [("name", name)] ([io_node v "input" mi b; io_node v "output" mo b] ++ sop_nodes v p)).
  Proof.
    intros Hn Hi Ho Hp. destruct v.
    - parts [([("name", name)], []); ([], [io_node V11 "input" mi b]); ([], [io_node V11 "output" mo b]); ([], []); ([], []); ([], sop_nodes V11 p)];
      [cbn [cd_fields]; parts_goal; [attr|apply (adds_io V11); auto|apply (adds_io V11); auto|nolist ns_wsdl|noelem|now apply (adds_sop V11)]|nodup
      |cbn [flat_map fst snd app]; now rewrite !app_nil_r].
    - parts [([("name", name)], []); ([], []); ([], [io_node V12 "input" mi b]); ([], [io_node V12 "output" mo b]); ([], []); ([], sop_nodes V12 p)];
      [cbn [cd_fields]; parts_goal; [attr|noelem|apply (adds_io V12); auto|apply (adds_io V12); auto|nolist ns_wsdl|now apply (adds_sop V12)]|nodup
      |cbn [flat_map fst snd app]; now rewrite !app_nil_r].
  Qed.
  Lemma render_bound v n t ns m : method_describable m ->
    r v (S (S (S n))) "Operation" t (bound_op v m) ns =
    Ok (Elem t [("name", wm_op m)] (subnodes (describe_bound v m))).
  Proof.
    intros (H1 & H2 & _ & _ & H3).
    refine (render_op v n t ns (wm_op m) None None true (Some (wm_action m, wm_style m)) _ _ _ _); auto; try (intros ? [=]; fail).
    intros a st [= <- <-]. split; [assumption|]. destruct H3 as [-> | ->]; reflexivity.
  Qed.
  Lemma render_ptop v n t ns m : method_describable m ->
    r v (S (S (S n))) "Operation" t (pt_op v m) ns = Ok (Elem t [("name", wm_op m)] (subnodes (describe_operation m))).
  Proof.
    intros (H1 & _).
    refine (render_op v n t ns (wm_op m) (Some _) (Some _) false None _ _ _ _); auto; try (intros ? ? [=]; fail).
    - intros x [= <-]. change (text ("tns:" ++ (wm_op m ++ "Input"))). repeat apply text_app; auto; reflexivity.
    - intros x [= <-]. change (text ("tns:" ++ (wm_op m ++ "Output"))). repeat apply text_app; auto; reflexivity.
  Qed.

  Lemma render_binding v n t ns name ty ops out : text name -> text ty -> wrendered v (S n) "Operation" "operation" ops out ->
    r v (S (S n)) "Binding" t (o_binding v name ty ops) ns =
    Ok (Elem t [("name", name); ("type", ty)] (out ++ [soap_el v "binding" [("style", "document"); ("transport", ns_soap_http)]])).
  Proof.
    intros Hn Ht Ho. destruct v.
    - parts [([("name", name)], []); ([("type", ty)], []); ([], out); ([], []);
             ([], [soap_el V11 "binding" [("style", "document"); ("transport", ns_soap_http)]])];
      [cbn [cd_fields]; parts_goal; [attr|attr|wlist|noelem|]|nodup|cbn [flat_map fst snd app]; now rewrite ?app_nil_r].
      eapply adds_elem with (n' := binding_ns V11); try reflexivity; try discriminate; apply no_brace_binding.
    - parts [([("name", name)], []); ([("type", ty)], []); ([], []); ([], out);
             ([], [soap_el V12 "binding" [("style", "document"); ("transport", ns_soap_http)]])];
      [cbn [cd_fields]; parts_goal; [attr|attr|noelem|wlist|]|nodup|cbn [flat_map fst snd app]; now rewrite ?app_nil_r].
      eapply adds_elem with (n' := binding_ns V12); try reflexivity; try discriminate; apply no_brace_binding.
  Qed.
  Lemma render_portType v n t ns name ops out : text name -> wrendered v n "Operation" "operation" ops out ->
    r v (S n) "PortType" t (o_portType v name ops) ns = Ok (Elem t [("name", name)] out).
  Proof.
    intros Hn Ho. destruct v.
    - parts [([("name", name)], []); ([], out); ([], [])];
      [cbn [cd_fields]; parts_goal; [attr|wlist|noelem]|nodup|cbn [flat_map fst snd app]; now rewrite ?app_nil_r].
    - parts [([("name", name)], []); ([], []); ([], out)];
      [cbn [cd_fields]; parts_goal; [attr|noelem|wlist]|nodup|cbn [flat_map fst snd app]; now rewrite ?app_nil_r].
  Qed.
  Lemma render_service v n t ns name ps out : text name -> wrendered v n "Port" "port" ps out ->
    r v (S n) "Service" t (o_service v name ps) ns = Ok (Elem t [("name", name)] out).
  Proof.
    intros Hn Ho. destruct v.
    - parts [([("name", name)], []); ([], out); ([], [])];
      [cbn [cd_fields]; parts_goal; [attr|wlist|noelem]|nodup|cbn [flat_map fst snd app]; now rewrite ?app_nil_r].
    - parts [([("name", name)], []); ([], []); ([], out)];
      [cbn [cd_fields]; parts_goal; [attr|noelem|wlist]|nodup|cbn [flat_map fst snd app]; now rewrite ?app_nil_r].
  Qed.
  Lemma render_message v b n t ns name p out : text name -> wrendered v n "Part" "part" [p] out ->
    r v (S n) "Message" t (o_message v b name p) ns = Ok (Elem t [("name", name)] out).
  Proof.
    intros Hn Ho. destruct v.
    - parts [([("name", name)], []); ([], out); ([], [])];
      [cbn [cd_fields]; parts_goal; [attr|wlist|noelem]|nodup|cbn [flat_map fst snd app]; now rewrite ?app_nil_r].
    - parts [([("name", name)], []); ([], []); ([], out)];
      [cbn [cd_fields]; parts_goal; [attr|noelem|wlist]|nodup|cbn [flat_map fst snd app]; now rewrite ?app_nil_r].
  Qed.
  Lemma render_io_part v n t ns io : io_describable io ->
    r v (S n) "Part" t (io_part v io) ns = Ok (Elem t (("name", "body") :: io_ref io) []).
  Proof.
    intros H. destruct io as [|e|c]; cbn [io_describable] in H; [destruct H| |].
    - refine (render_part v n t ns (Some _) None _ _); [|intros x [=]]. intros x [= <-].
      change (text ("sns:" ++ e)). apply text_app; [reflexivity|assumption].
    - refine (render_part v n t ns None (Some _) _ _); [intros x [=]|]. intros x [= <-].
      change (text ("sns:" ++ type_name c)). apply text_app; [reflexivity|apply text_type_name, H].
  Qed.
  Lemma render_msg v b n ns name io : text name -> io_describable io ->
    r v (S (S n)) "Message" (clark ns_wsdl "message") (o_message v b name (io_part v io)) ns = Ok (describe_message name io).
  Proof.
    intros Hn Hi. apply render_message; [assumption|]. constructor; [|constructor]. split; [destruct io; discriminate|].
    now apply render_io_part.
  Qed.
  Lemma render_types v b n t ns schemas out :
    Forall2 (fun o x => o <> VNil /\ render_obj n O L (xs "Schema") (Elem (clark ns_xsd "schema") [] []) o ns_x efd_q = Ok x) schemas out ->
    r v (S n) "Types" t (o_types v b schemas) ns = Ok (Elem t [] out).
  Proof.
    intros H. destruct v;
    (parts [(@nil (string * string), out); ([], [])];
      [cbn [cd_fields]; parts_goal; [|noelem]|nodup|cbn [flat_map fst snd app]; now rewrite ?app_nil_r]);
    (eapply adds_list with (n' := ns_xsd); try reflexivity; try discriminate; [now left|exact no_brace_xsd|eassumption]).
  Qed.
  Lemma render_defs v b n t ns tns ty tyx ms ps bs ss msx psx bsx ssx : text tns ->
    r v n "Types" (clark ns_wsdl "types") (o_types v b ty) ns_w = Ok tyx ->
    wrendered v n "Message" "message" ms msx -> wrendered v n "PortType" "portType" ps psx ->
    wrendered v n "Binding" "binding" bs bsx -> wrendered v n "Service" "service" ss ssx ->
    r v (S n) "Definitions" t (o_defs v tns (o_types v b ty) ms ps bs ss) ns =
    Ok (Elem t [("targetNamespace", tns)] ([tyx] ++ msx ++ psx ++ bsx ++ ssx)).
  Proof.
    intros Ht Hy Hm Hp Hb Hs. destruct v.
    - parts [([], []); ([("targetNamespace", tns)], []); ([], []); ([], [tyx]); ([], msx); ([], psx); ([], bsx); ([], ssx); ([], [])];
      [cbn [cd_fields]; parts_goal; [noattr|attr|nolist ns_wsdl| |wlist|wlist|wlist|wlist|noelem]|nodup|cbn [flat_map fst snd app]; now rewrite ?app_nil_r].
      eapply adds_elem with (n' := ns_wsdl); try reflexivity; try discriminate; [exact no_brace_wsdl|exact Hy].
    - parts [([], []); ([("targetNamespace", tns)], []); ([], []); ([], []); ([], [tyx]); ([], msx); ([], psx); ([], bsx); ([], ssx)];
      [cbn [cd_fields]; parts_goal; [noattr|attr|noelem|nolist ns_wsdl| |wlist|wlist|wlist|wlist]|nodup|cbn [flat_map fst snd app]; now rewrite ?app_nil_r].
      eapply adds_elem with (n' := ns_wsdl); try reflexivity; try discriminate; [exact no_brace_wsdl|exact Hy].
  Qed.
End render.

Lemma schemas_ok O lim E G k l : Forall (schema_describable O E G) l ->
  exists objs, mapM (generate_xsdspec O (lib_env lim) E G) l = Ok objs /\
    Forall2 (fun o x => o <> VNil /\ render_obj (8 + k) O (lib_env lim) (xs "Schema") (Elem (clark ns_xsd "schema") [] []) o ns_x efd_q = Ok x)
      objs (map (describe_schema O E G) l).
Proof.
  induction 1 as [|s l H _ (objs & M & F)]; cbn [mapM map]; [exists []; split; [reflexivity|constructor]|].
  destruct (schema_object O lim E G k s H) as (i1 & i2 & ss & cs & es & C & R1 & R2 & R3 & R4 & R5).
  exists (o_schema (gs_tns s) (gs_efd s) i1 i2 ss cs es :: objs). rewrite C. cbn [bind]. rewrite M. split; [reflexivity|].
  constructor; [|assumption]. split; [discriminate|].
  exact (render_schema O lim (7 + k) (gs_tns s) (gs_efd s) i1 i2 ss cs es _ _ _ _ _ (proj1 H) (proj1 (proj2 H)) R1 R2 R3 R4 R5).
Qed.

Definition wsdl_prefixes (s : wservice) : list (string * string) :=
  [("sns", match ws_schemas s with sc :: _ => gs_tns sc | [] => "" end); ("soap", binding_ns (ws_version s)); ("tns", ws_tns s);
   ("wsdl", ns_wsdl); ("xsd", ns_xsd)].
Lemma render_defs_of O lim E G k b s objs : let v := ws_version s in service_describable O E G s ->
  Forall2 (fun o x => o <> VNil /\ render_obj (8 + k) O (lib_env lim) (xs "Schema") (Elem (clark ns_xsd "schema") [] []) o ns_x efd_q = Ok x)
      objs (map (describe_schema O E G) (ws_schemas s)) ->
  render_obj (10 + k) O (lib_env lim) (wn v "Definitions") (Elem (clark ns_wsdl "definitions") [] []) (defs_of v b s objs) ns_w efd_q =
              Ok (describe_service O E G s).
Proof.
  intros v (Hn & Ht & Hl & Hs & Hd & Hm) F.
  unfold defs_of. change (10 + k) with (S (9 + k)).
  assert (T : forall a b, text a -> text b -> text (a ++ b)%string) by apply text_app.
  eapply eq_trans; [eapply render_defs|reflexivity].
  - assumption.
  - change (9 + k) with (S (8 + k)). apply render_types. exact F.
  - clear -Hm. induction Hm as [|m l (H1 & _ & H2 & H3 & _) _ IH]; cbn [flat_map]; [constructor|].
    unfold msgs, describe_messages. cbn [app]. constructor; [|constructor; [|exact IH]]; (split; [discriminate|]).
    + apply (render_msg O lim v b (7 + k)); [apply text_app; [assumption|reflexivity]|assumption].
    + apply (render_msg O lim v b (7 + k)); [apply text_app; [assumption|reflexivity]|assumption].
  - constructor; [|constructor]. split; [discriminate|]. apply (render_portType O lim v (8 + k)); [apply T; [assumption|reflexivity]|].
    clear -Hm. apply Forall2_map_same. eapply Forall_impl; [|exact Hm]. intros m Hx. split; [discriminate|].
    apply (render_ptop O lim v (5 + k)); assumption.
  - constructor; [|constructor]. split; [discriminate|].
    apply (render_binding O lim v (7 + k)); [apply T; [assumption|reflexivity]|change (text ("tns:" ++ (ws_name s ++ "PortType"))); apply T; [reflexivity|apply T; [assumption|reflexivity]]|].
    clear -Hm. apply Forall2_map_same. eapply Forall_impl; [|exact Hm]. intros m Hx. split; [discriminate|].
    apply (render_bound O lim v (5 + k)); assumption.
  - constructor; [|constructor]. split; [discriminate|]. apply (render_service O lim v (8 + k)); [assumption|].
    constructor; [|constructor]. split; [discriminate|]. apply (render_port O lim v (6 + k)); [apply T; [assumption|reflexivity]| |assumption].
    change (text ("tns:" ++ (ws_name s ++ "Binding"))). apply T; [reflexivity|apply T; [assumption|reflexivity]].
Qed.
Lemma generate_wsdl_ok O lim E G k s : service_describable O E G s ->
  generate_wsdl (10 + k) O (lib_env lim) E G s = Ok (mkDoc (wsdl_prefixes s) (describe_service O E G s)).
Proof.
  intros H. pose proof H as (Hn & Ht & Hl & Hs & Hd & Hm). destruct (schemas_ok O lim E G k _ Hd) as (objs & M & F).
  unfold generate_wsdl. rewrite (build_ok O lim _ E G s objs Hm M). cbn [bind]. unfold wsdl_prefixes.
  destruct (ws_schemas s) as [|sc rest] eqn:Es; [congruence|]. rewrite <- Es in *. cbn [bind].
  change (mk_element (clark ns_wsdl "definitions")) with (Ok (Elem (clark ns_wsdl "definitions") [] [])). cbn [bind].
  pose proof (render_defs_of O lim E G k false s objs H F) as R.
  unfold ns_w, efd_q in R. rewrite R. reflexivity.
Qed.
