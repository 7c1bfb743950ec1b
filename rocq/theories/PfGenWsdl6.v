(** The objects py2xsd and py2wsdl build read back from their documents. *)
From Coq Require Import String Ascii List ZArith NArith Bool Lia.
From Verif Require Import PyBase PfBase PyRe Xml PyVal XsdSimple XsdComplex PyHttp Soap Client Dispatch LibClasses Py2Xsd SpecXsd SpecRound SpecParse
  SpecRender Py2Wsdl SpecFacets SpecGenWsdl PfSimple PfRender PfRender2 PfRound PfRoundEx PfLeaf PfLib PfLibRound PfXsd PfXsdRt PfXsd2 PfGenWsdl PfGenWsdl2 PfGenWsdl4 PfGenWsdl5.
Import ListNotations.
Open Scope string_scope.
Open Scope list_scope.
Open Scope nat_scope.

(** ** Schemas *)
Lemma schema_rt O lim E G k s : schema_describable O E G s ->
  exists o, generate_xsdspec O (lib_env lim) E G s = Ok o /\ rt_at O lim (8 + k) (xs "Schema") o /\
    render_obj (8 + k) O (lib_env lim) (xs "Schema") (Elem (clark ns_xsd "schema") [] []) o ns_x efd_q = Ok (describe_schema O E G s).
Proof.
  intros H. destruct (schema_object O lim E G k s H) as (i1 & i2 & ss & cs & es & C & R1 & R2 & R3 & R4 & R5).
  eexists. split; [exact C|]. split.
  - apply (rt_schema O lim (7 + k)); try (eapply rendered_rt; eassumption); apply H.
  - exact (render_schema O lim (7 + k) (gs_tns s) (gs_efd s) i1 i2 ss cs es _ _ _ _ _ (proj1 H) (proj1 (proj2 H)) R1 R2 R3 R4 R5).
Qed.

(** Reading what [render_obj] wrote. *)
Lemma reads_back O lim n c v tag (ns : string) x : in_lib c -> rt_at O lim n c v -> ncname_ok tag = true -> ~ In "}"%char (to_l ns) -> ns <> "" ->
  render_obj n O (lib_env lim) c (Elem (clark ns tag) [] []) v (Some ns) (Some qualified) = Ok x ->
  forall pretty doc, layout (wire x) pretty -> doc = pretty \/ noise (lib_env lim) c pretty doc ->
  exists v', parse_obj n O (lib_env lim) c doc = Ok v' /\ erase v' = erase v.
Proof.
  intros Hc [Hr Hd] Ht Hb Hn R.
  destruct (roundtrip_wire O (lib_env lim) in_lib c v tag (Some ns) (Some qualified) n (lib_rt O lim) Hc Hr Ht Hb Hd) as (y & X & Q).
  unfold xml_of, mk_element in X. apply String.eqb_neq in Hn. rewrite Hn in X.
  assert (N : norm_name (clark ns tag) = Ok (clark ns tag)).
  { pose proof (norm_ref_tag (Some ns) tag) as N. unfold ref_tag in N. rewrite Hn in N. now apply N. }
  rewrite N in X. cbn [bind] in X. inversion Hr; subst. cbn [obj_parts bind fst] in X. rewrite R in X. injection X as <-. exact Q.
Qed.

(** ** The objects of a WSDL document *)
Section rt.
  Variables (O : oracle) (lim : nat).
  Local Notation at_ v n c x := (rt_at O lim n (wn v c) x).

  Ltac str := eapply rv_str; [reflexivity|reflexivity|reflexivity|assumption].
  Ltac lit := eapply rv_str; reflexivity.
  Ltac ostr := eapply rv_opt; [reflexivity|reflexivity|reflexivity|reflexivity|assumption].
  Ltac nostr := eapply rv_none_str; reflexivity.
  Ltac nobool := split; [eapply rf_attr_none; reflexivity|cbn; lia].
  Ltac none := apply rv_none; reflexivity.
  Ltac lst := eapply rv_list; [reflexivity|reflexivity|first [now left | now right]|reflexivity|try (constructor; fail)].
  Ltac obj H := eapply rv_obj; [reflexivity|reflexivity|exact H].
  Ltac start := eapply rt_fields; [vm_compute; reflexivity| |rt_names]; cbn [cd_fields]; rt_goal.

  Lemma rt_address v n l : text l -> at_ v (S n) "SOAP_Address" (o_address v l).
  Proof. intros Hl. destruct v; start; str. Qed.
  Lemma rt_port v n name b l : text name -> text b -> text l -> at_ v (S (S n)) "Port" (o_port v name b (o_address v l)).
  Proof. intros Hn Hb Hl. pose proof (rt_address v n l Hl) as A. destruct v; start; [str|str|none|obj A|str|str|none|obj A]. Qed.
  Lemma rt_service v n name ps : text name -> Forall (rt_at O lim n (wn v "Port")) ps -> at_ v (S n) "Service" (o_service v name ps).
  Proof. intros Hn Hp. destruct v; start; [str|lst; exact Hp|none|str|none|lst; exact Hp]. Qed.
  Lemma rt_body v n : at_ v (S n) "SOAP_Body" (o_body v).
  Proof. destruct v; start; [nostr|lit|nostr|nostr|nostr|lit|nostr|nostr]. Qed.
  Lemma rt_io v n c msg body : In c ["Input"; "Output"] -> text_opt msg -> body = VNone \/ at_ v n "SOAP_Body" body -> at_ v (S n) c (o_io v c msg body).
  Proof.
    intros Hc Hm Hb. repeat destruct Hc as [<- |Hc]; try destruct Hc; destruct v; start;
    first [nostr|ostr|none|lst|destruct Hb as [-> |Hb]; [none|obj Hb]].
  Qed.
  Lemma rt_sop v n a st : text a -> st = "document" \/ st = "rpc" -> at_ v (S n) "SOAP_Operation" (o_sop v a st).
  Proof. intros Ha Hs. destruct v; start; [str|destruct Hs as [-> | ->]; lit|str|destruct Hs as [-> | ->]; lit|nobool]. Qed.
  Lemma rt_op v n name i o sop : text name -> at_ v n "Input" i -> at_ v n "Output" o -> sop = VNone \/ at_ v n "SOAP_Operation" sop ->
    at_ v (S n) "Operation" (o_op v name i o sop).
  Proof.
    intros Hn Hi Ho Hs. destruct v; start;
    first [str|none|lst|obj Hi|obj Ho|destruct Hs as [-> |Hs]; [none|obj Hs]].
  Qed.
  Lemma rt_sbinding v n : at_ v (S n) "SOAP_Binding" (o_sbinding v).
  Proof. destruct v; start; lit. Qed.
  Lemma rt_binding v n name ty ops : text name -> text ty -> Forall (rt_at O lim (S n) (wn v "Operation")) ops -> at_ v (S (S n)) "Binding" (o_binding v name ty ops).
  Proof.
    intros Hn Ht Ho. pose proof (rt_sbinding v n) as B. destruct v; start; first [str|none|obj B|lst; exact Ho].
  Qed.
  Lemma rt_portType v n name ops : text name -> Forall (rt_at O lim n (wn v "Operation")) ops -> at_ v (S n) "PortType" (o_portType v name ops).
  Proof. intros Hn Ho. destruct v; start; first [str|none|lst; exact Ho]. Qed.
  Lemma rt_part v n e t : text_opt e -> text_opt t -> at_ v (S n) "Part" (o_part v e t).
  Proof. intros He Ht. destruct v; start; first [lit|ostr]. Qed.
  Lemma rt_message v n name p : text name -> at_ v n "Part" p -> at_ v (S n) "Message" (o_message v true name p).
  Proof. intros Hn Hp. destruct v; start; first [str|none|lst; constructor; [exact Hp|constructor]]. Qed.
  Lemma rt_types v n l : Forall (rt_at O lim n (xs "Schema")) l -> at_ v (S n) "Types" (o_types v true l).
  Proof. intros Hl. destruct v; start; first [none|lst; exact Hl]. Qed.
  Lemma rt_defs v n tns ty ms ps bs ss : text tns -> at_ v n "Types" ty -> Forall (rt_at O lim n (wn v "Message")) ms ->
    Forall (rt_at O lim n (wn v "PortType")) ps -> Forall (rt_at O lim n (wn v "Binding")) bs -> Forall (rt_at O lim n (wn v "Service")) ss ->
    at_ v (S n) "Definitions" (o_defs v tns ty ms ps bs ss).
  Proof.
    intros Ht Hy Hm Hp Hb Hs. destruct v; start;
    first [nostr|str|none|obj Hy|lst; first [exact Hm|exact Hp|exact Hb|exact Hs]|lst].
  Qed.

  (** Those of a service. *)
  Lemma rt_io_part v n io : io_describable io -> at_ v (S n) "Part" (io_part v io).
  Proof.
    intros H. destruct io as [|e|c]; cbn [io_describable] in H; [destruct H| |]; cbn [io_part]; apply rt_part; intros x [=]; subst x.
    - change (text ("sns:" ++ e)). apply text_app; [reflexivity|assumption].
    - change (text ("sns:" ++ type_name c)). apply text_app; [reflexivity|apply text_type_name, H].
  Qed.
  Lemma rt_bound v n m : method_describable m -> at_ v (S (S (S n))) "Operation" (bound_op v m).
  Proof.
    intros (H1 & H2 & _ & _ & H3). apply rt_op; [assumption| | |].
    - apply rt_io; [now left|intros x [=]|right; apply rt_body].
    - apply rt_io; [right; now left|intros x [=]|right; apply rt_body].
    - right. now apply rt_sop.
  Qed.
  Lemma rt_ptop v n m : method_describable m -> at_ v (S (S n)) "Operation" (pt_op v m).
  Proof.
    intros (H1 & H2 & _ & _ & H3).
    assert (T : forall z, text z -> text ("tns:" ++ wm_op m ++ z)) by (intros z Hz; repeat (apply text_app; [first [reflexivity|assumption]|]); assumption).
    apply rt_op; [assumption| | |now left]; (apply rt_io; [first [now left|right; now left]| |now left]); intros x [= <-]; first [exact (T "Input" eq_refl) | exact (T "Output" eq_refl)].
  Qed.
  Lemma rt_defs_of E G k s objs : let v := ws_version s in service_describable O E G s -> Forall (rt_at O lim (8 + k) (xs "Schema")) objs ->
    at_ v (10 + k) "Definitions" (defs_of v true s objs).
  Proof.
    intros v (Hn & Ht & Hl & Hs & Hd & Hm) F. unfold defs_of.
    assert (T : forall a b, text a -> text b -> text (a ++ b)%string) by apply text_app.
    apply (rt_defs v (9 + k)).
    - assumption.
    - apply (rt_types v (8 + k)). exact F.
    - clear -Hm. induction Hm as [|m l (H1 & _ & H2 & H3 & _) _ IH]; cbn [flat_map]; [constructor|].
      unfold msgs. cbn [app]. constructor; [|constructor; [|exact IH]];
        (apply (rt_message v (8 + k)); [apply text_app; [assumption|reflexivity]|apply (rt_io_part v (7 + k)); assumption]).
    - constructor; [|constructor]. apply (rt_portType v (8 + k)); [apply T; [assumption|reflexivity]|].
      apply Forall_map. eapply Forall_impl; [|exact Hm]. intros m Hx. apply (rt_ptop v (6 + k)); assumption.
    - constructor; [|constructor].
      apply (rt_binding v (7 + k)); [apply T; [assumption|reflexivity]|change (text ("tns:" ++ (ws_name s ++ "PortType"))); apply T; [reflexivity|apply T; [assumption|reflexivity]]|].
      apply Forall_map. eapply Forall_impl; [|exact Hm]. intros m Hx. apply (rt_bound v (5 + k)); assumption.
    - constructor; [|constructor]. apply (rt_service v (8 + k)); [assumption|].
      constructor; [|constructor]. apply (rt_port v (6 + k)); [apply T; [assumption|reflexivity]| |assumption].
      change (text ("tns:" ++ (ws_name s ++ "Binding"))). apply T; [reflexivity|apply T; [assumption|reflexivity]].
  Qed.
End rt.

(** ** Reading back *)
Lemma data_erase v : data (erase v) = data v.
Proof.
  induction v as [v Hv|c xe fs IH|t l IH] using pyval_ind'.
  - destruct v; easy.
  - cbn. f_equal. rewrite map_map. apply map_ext_Forall. cbn [fst snd]. eapply Forall_impl; [|exact IH]. intros p ->. reflexivity.
  - cbn. f_equal. rewrite map_map. apply map_ext_Forall, IH.
Qed.
Lemma data_defs v b s objs : data (defs_of v b s objs) = data (defs_of v true s objs).
Proof.
  assert (M : map data (flat_map (msgs v b) (ws_methods s)) = map data (flat_map (msgs v true) (ws_methods s))).
  { induction (ws_methods s) as [|m l IH]; [reflexivity|]. cbn [flat_map]. rewrite !map_app, IH. f_equal. unfold msgs, o_message. destruct v; reflexivity. }
  unfold defs_of, o_defs. destruct v; cbn [o_doc app ob data map fst snd]; rewrite M; reflexivity.
Qed.
Lemma xsd_reads O lim E G k s doc o x : schema_describable O E G s ->
  generate_xsd (8 + k) O (lib_env lim) E G s = Ok doc -> generate_xsdspec O (lib_env lim) E G s = Ok o ->
  received (lib_env lim) (xs "Schema") (xd_root doc) x ->
  exists o', parse_obj (8 + k) O (lib_env lim) (xs "Schema") x = Ok o' /\ data o' = data o.
Proof.
  intros H Gd Go (pretty & Hp & Hx). rewrite generate_ok in Gd by assumption. injection Gd as <-. cbn [xd_root] in Hp.
  destruct (schema_rt O lim E G k s H) as (o1 & E1 & T & R). rewrite E1 in Go. injection Go as <-.
  destruct (reads_back O lim (8 + k) (xs "Schema") o1 "schema" ns_xsd _ ltac:(vm_compute; tauto) T eq_refl
    no_brace_xsd ltac:(discriminate) R pretty x Hp Hx) as (v' & P & Q).
  exists v'. split; [exact P|]. now rewrite <- data_erase, Q, data_erase.
Qed.
Lemma schemas_rt O lim E G k l : Forall (schema_describable O E G) l ->
  exists objs, mapM (generate_xsdspec O (lib_env lim) E G) l = Ok objs /\ Forall (rt_at O lim (8 + k) (xs "Schema")) objs /\
    Forall2 (fun o x => o <> VNil /\ render_obj (8 + k) O (lib_env lim) (xs "Schema") (Elem (clark ns_xsd "schema") [] []) o ns_x efd_q = Ok x)
      objs (map (describe_schema O E G) l).
Proof.
  induction 1 as [|s l H _ (objs & M & T & F)]; cbn [mapM map]; [exists []; repeat split; constructor|].
  destruct (schema_rt O lim E G k s H) as (o & C & To & R). exists (o :: objs). rewrite C. cbn [bind]. rewrite M. split; [reflexivity|].
  split; constructor; auto. split; [|assumption]. destruct To as [To _]. inversion To; discriminate.
Qed.
Lemma wn_in v c : In c ["Definitions"; "Types"] -> in_lib (wn v c).
Proof. intros H. destruct v; repeat destruct H as [<- |H]; try destruct H; vm_compute; tauto. Qed.
Lemma wsdl_erased O lim E G k s doc d x : service_describable O E G s ->
  generate_wsdl (10 + k) O (lib_env lim) E G s = Ok doc -> build_definitions O (lib_env lim) (ws_version s) E G s = Ok d ->
  received (lib_env lim) (wn (ws_version s) "Definitions") (xd_root doc) x ->
  exists objs d', d = defs_of (ws_version s) false s objs /\
    parse_obj (10 + k) O (lib_env lim) (wn (ws_version s) "Definitions") x = Ok d' /\ erase d' = erase (defs_of (ws_version s) true s objs).
Proof.
  intros H Gd Go (pretty & Hp & Hx). rewrite generate_wsdl_ok in Gd by assumption. injection Gd as <-. cbn [xd_root] in Hp.
  pose proof H as (_ & _ & _ & _ & Hs & Hm). destruct (schemas_rt O lim E G k _ Hs) as (objs & M & T & F).
  rewrite (build_ok O lim _ E G s objs Hm M) in Go. injection Go as <-. exists objs.
  destruct (reads_back O lim (10 + k) (wn (ws_version s) "Definitions") (defs_of (ws_version s) true s objs) "definitions" ns_wsdl _
    (wn_in _ _ (or_introl eq_refl)) (rt_defs_of O lim E G k s objs H T) eq_refl no_brace_wsdl ltac:(discriminate)
    (render_defs_of O lim E G k true s objs H F) pretty x Hp Hx) as (v' & P & Q).
  exists v'. auto.
Qed.
Lemma wsdl_reads O lim E G k s doc d x : service_describable O E G s ->
  generate_wsdl (10 + k) O (lib_env lim) E G s = Ok doc -> build_definitions O (lib_env lim) (ws_version s) E G s = Ok d ->
  received (lib_env lim) (wn (ws_version s) "Definitions") (xd_root doc) x ->
  exists d', parse_obj (10 + k) O (lib_env lim) (wn (ws_version s) "Definitions") x = Ok d' /\ data d' = data d.
Proof.
  intros H Gd Go Hx. destruct (wsdl_erased O lim E G k s doc d x H Gd Go Hx) as (objs & d' & -> & P & Q).
  exists d'. split; [exact P|]. rewrite <- data_erase, Q, data_erase. symmetry. apply data_defs.
Qed.

(** ** Lookup in what was read *)
Lemma get_erase v name : py_get (erase v) name = res_map erase (py_get v name).
Proof.
  unfold py_get. destruct v; try reflexivity. cbn [erase obj_parts bind snd]. unfold getattr.
  assert (A : assoc name (map (fun p => (fst p, erase (snd p))) fs) = option_map erase (assoc name fs)).
  { induction fs as [|[k x] l IH]; [reflexivity|]. cbn. destruct (String.eqb name k); [reflexivity|exact IH]. }
  rewrite A. destruct (assoc name fs); reflexivity.
Qed.
Lemma eqb_erase v s : py_eqb (erase v) (VStr s) = py_eqb v (VStr s).
Proof. destruct v; reflexivity. Qed.
Lemma first_erase l n : first_named (map erase l) n = res_map erase (first_named l n).
Proof.
  induction l as [|v l IH]; [reflexivity|]. cbn [map first_named]. rewrite get_erase. destruct (py_get v "name") as [x|e]; [|reflexivity].
  cbn [res_map bind]. rewrite eqb_erase. destruct (py_eqb x (VStr n)); [reflexivity|exact IH].
Qed.
Lemma by_name_erase l f : get_by_name (erase l) (erase f) = res_map erase (get_by_name l f).
Proof. destruct f; try reflexivity. destruct l; try reflexivity. cbn [erase get_by_name]. apply first_erase. Qed.
Lemma lookup_erase d b op x : get_message_object (erase d) (erase b) (erase op) x = res_map erase (get_message_object d b op x).
Proof.
  unfold get_message_object. rewrite !get_erase.
  destruct (py_get d "portTypes") as [a1|]; [|reflexivity]. cbn [res_map bind].
  destruct (py_get b "type") as [a2|]; [|reflexivity]. cbn [res_map bind]. rewrite by_name_erase.
  destruct (get_by_name a1 a2) as [a3|]; [|reflexivity]. cbn [res_map bind]. rewrite get_erase.
  destruct (py_get a3 "operations") as [a4|]; [|reflexivity]. cbn [res_map bind].
  destruct (py_get op "name") as [a5|]; [|reflexivity]. cbn [res_map bind]. rewrite by_name_erase.
  destruct (get_by_name a4 a5) as [a6|]; [|reflexivity]. cbn [res_map bind]. rewrite get_erase.
  destruct (py_get a6 x) as [a7|]; [|reflexivity]. cbn [res_map bind].
  destruct (py_get d "messages") as [a8|]; [|destruct a7; reflexivity]. cbn [res_map bind].
  rewrite get_erase. destruct a7; try reflexivity. cbn [erase]. 
  destruct (py_get _ "message") as [a9|]; [|reflexivity]. cbn [res_map bind]. apply by_name_erase.
Qed.

Lemma in_list_erase o name x : in_list o name x -> in_list (erase o) name (erase x).
Proof.
  intros (fl & l & Hg & Hi). exists fl, (map erase l). split; [rewrite get_erase, Hg; reflexivity|now apply in_map].
Qed.
Lemma in_list_of o name b l x : py_get o name = Ok (VList b l) -> in_list o name x -> In x l.
Proof. intros H (fl & l' & H' & Hi). rewrite H in H'. injection H' as _ <-. exact Hi. Qed.
Lemma lookup_any v typed s objs d b op m x io : Forall method_describable (ws_methods s) -> referable s ->
  erase d = erase (defs_of v typed s objs) ->
  In m (ws_methods s) -> In (x, io) [("input", wm_in m); ("output", wm_out m)] ->
  in_list d "bindings" b -> in_list b "operations" op -> py_get op "name" = Ok (VStr (wm_op m)) ->
  exists msg part, get_message_object d b op x = Ok msg /\ message_part msg = Ok part /\ part_declares io part.
Proof.
  intros Hm Hr Ed Im Ix Hb Ho Hn.
  set (b0 := o_binding v (ws_name s ++ "Binding") ("tns:" ++ ws_name s ++ "PortType") (map (bound_op v) (ws_methods s))).
  assert (D1 : py_get (defs_of v typed s objs) "bindings" = Ok (VList true [b0])).
  { unfold defs_of, o_defs. rewrite get_doc by discriminate. reflexivity. }
  assert (D2 : py_get b0 "operations" = Ok (VList true (map (bound_op v) (ws_methods s)))).
  { unfold b0, o_binding. rewrite get_doc by discriminate. reflexivity. }
  apply in_list_erase in Hb. rewrite Ed in Hb.
  assert (Eb : erase b = erase b0).
  { eapply in_list_of in Hb; [|rewrite get_erase, D1; reflexivity]. destruct Hb as [Hb | []]. now symmetry. }
  apply in_list_erase in Ho. rewrite Eb in Ho.
  assert (Eo : exists m', In m' (ws_methods s) /\ erase op = erase (bound_op v m')).
  { eapply in_list_of in Ho; [|rewrite get_erase, D2; reflexivity]. rewrite map_map in Ho. apply in_map_iff in Ho as (m' & E1 & H1). eauto. }
  destruct Eo as (m' & Im' & Eo).
  assert (D3 : py_get (bound_op v m') "name" = Ok (VStr (wm_op m'))).
  { unfold bound_op, o_op. rewrite get_doc by discriminate. reflexivity. }
  assert (wm_op m' = wm_op m).
  { pose proof (get_erase op "name") as X. rewrite Eo, Hn, get_erase, D3 in X. now injection X. }
  assert (m' = m) as ->.
  { destruct Hr as (_ & _ & N). revert N Im Im' H. clear. induction (ws_methods s) as [|a l IH]; cbn; [tauto|].
    intros N H1 H2 Hn. inversion N; subst. destruct H1 as [-> |H1], H2 as [-> |H2]; auto.
    - exfalso. apply H3. rewrite <- Hn. now apply in_map.
    - exfalso. apply H3. rewrite Hn. now apply in_map. }
  destruct (lookup_ok v typed s objs Hr m x io Im Ix) as (name & Q). fold b0 in Q.
  pose proof (lookup_erase d b op x) as L1. rewrite Ed, Eb, Eo, lookup_erase, Q in L1. cbn [res_map] in L1.
  destruct (get_message_object d b op x) as [msg|]; [|discriminate]. cbn [res_map] in L1. assert (L2 : erase (o_message v typed name (io_part v io)) = erase msg) by congruence. clear L1. rename L2 into L1.
  assert (Ip : io_describable io).
  { rewrite Forall_forall in Hm. destruct (Hm m Im) as (_ & _ & H1 & H2 & _). destruct Ix as [[= <- <-] | [[= <- <-] | []]]; assumption. }
  pose proof (get_erase msg "parts") as G1. rewrite <- L1, get_erase in G1.
  assert (D4 : py_get (o_message v typed name (io_part v io)) "parts" = Ok (VList typed [io_part v io])).
  { unfold o_message. rewrite get_doc by discriminate. reflexivity. }
  rewrite D4 in G1. cbn [res_map erase map] in G1. unfold message_part.
  destruct (py_get msg "parts") as [pl|] eqn:Ep; [|discriminate]. cbn [res_map] in G1. assert (G2 : VList typed [erase (io_part v io)] = erase pl) by congruence. clear G1. rename G2 into G1.
  destruct pl as [| | | | | | | | | | |c xe fs|fl l|]; try discriminate. cbn [erase] in G1. destruct l as [|p [|]]; try discriminate.
  assert (G2 : erase (io_part v io) = erase p) by (cbn [map] in G1; congruence). clear G1. rename G2 into G1. exists msg, p. split; [reflexivity|]. rewrite Ep. split; [reflexivity|].
  assert (P1 : forall f z, py_get (io_part v io) f = Ok z -> (z = VNone \/ exists t, z = VStr t) -> py_get p f = Ok z).
  { intros f z Hz Hs. pose proof (get_erase p f) as X. rewrite <- G1, get_erase, Hz in X. cbn [res_map] in X.
    destruct (py_get p f) as [w|]; [|discriminate]. cbn [res_map] in X. injection X as X.
    destruct Hs as [-> |[t ->]]; destruct w; cbn in X; try discriminate; congruence. }
  pose proof (part_declares_ok v io Ip) as Pd. destruct io; cbn [part_declares] in *; [destruct Pd| |]; destruct Pd as [Q1 Q2]; split; (apply P1; eauto).
Qed.
Lemma read_lookup O lim E G k s doc rx d : service_describable O E G s -> referable s ->
  generate_wsdl (10 + k) O (lib_env lim) E G s = Ok doc ->
  received (lib_env lim) (wn (ws_version s) "Definitions") (xd_root doc) rx ->
  parse_obj (10 + k) O (lib_env lim) (wn (ws_version s) "Definitions") rx = Ok d ->
  forall b op m x io, In m (ws_methods s) -> In (x, io) [("input", wm_in m); ("output", wm_out m)] ->
  in_list d "bindings" b -> in_list b "operations" op -> py_get op "name" = Ok (VStr (wm_op m)) ->
  exists msg part, get_message_object d b op x = Ok msg /\ message_part msg = Ok part /\ part_declares io part.
Proof.
  intros H Hr Gd Rx Pd b op m x io Im Ix Hb Ho Hn. pose proof H as (_ & _ & _ & _ & Hs & Hm).
  destruct (schemas_ok O lim E G 0 (ws_schemas s) Hs) as (objs & M & _).
  destruct (wsdl_erased O lim E G k s doc _ rx H Gd (build_ok O lim _ E G s objs Hm M) Rx) as (objs' & d' & _ & Pd' & Ed).
  rewrite Pd in Pd'. injection Pd' as <-. eapply lookup_any; eassumption.
Qed.
Lemma read_found O lim E G k s doc rx d : service_describable O E G s ->
  generate_wsdl (10 + k) O (lib_env lim) E G s = Ok doc ->
  received (lib_env lim) (wn (ws_version s) "Definitions") (xd_root doc) rx ->
  parse_obj (10 + k) O (lib_env lim) (wn (ws_version s) "Definitions") rx = Ok d ->
  forall m, In m (ws_methods s) -> exists b op, in_list d "bindings" b /\ in_list b "operations" op /\ py_get op "name" = Ok (VStr (wm_op m)).
Proof.
  intros H Gd Rx Pd m Im. pose proof H as (_ & _ & _ & _ & Hs & Hm).
  destruct (schemas_ok O lim E G 0 (ws_schemas s) Hs) as (objs & M & _).
  destruct (wsdl_erased O lim E G k s doc _ rx H Gd (build_ok O lim _ E G s objs Hm M) Rx) as (objs' & d' & _ & Pd' & Ed).
  rewrite Pd in Pd'. injection Pd' as <-. set (v := ws_version s) in *.
  set (b0 := o_binding v (ws_name s ++ "Binding") ("tns:" ++ ws_name s ++ "PortType") (map (bound_op v) (ws_methods s))).
  assert (D1 : py_get (defs_of v true s objs') "bindings" = Ok (VList true [b0])).
  { unfold defs_of, o_defs. rewrite get_doc by discriminate. reflexivity. }
  assert (D2 : py_get b0 "operations" = Ok (VList true (map (bound_op v) (ws_methods s)))).
  { unfold b0, o_binding. rewrite get_doc by discriminate. reflexivity. }
  assert (D3 : py_get (bound_op v m) "name" = Ok (VStr (wm_op m))).
  { unfold bound_op, o_op. rewrite get_doc by discriminate. reflexivity. }
  assert (X : forall o o0 f l, erase o = erase o0 -> py_get o0 f = Ok (VList true l) -> exists l', py_get o f = Ok (VList true l') /\ map erase l' = map erase l).
  { intros o o0 f l E1 Hl. pose proof (get_erase o f) as X. rewrite E1, get_erase, Hl in X. cbn [res_map erase] in X.
    destruct (py_get o f) as [w|]; [|discriminate]. cbn [res_map] in X. injection X as X. destruct w; cbn [erase] in X; try discriminate.
    injection X as <- X. eauto. }
  destruct (X d _ _ _ Ed D1) as (l1 & G1 & E1). destruct l1 as [|b [|]]; try discriminate. assert (E0 : erase b = erase b0) by (cbn [map] in E1; congruence). clear E1. rename E0 into E1.
  destruct (X b b0 _ _ E1 D2) as (l2 & G2 & E2).
  assert (I2 : In (erase (bound_op v m)) (map erase l2)) by (rewrite E2; apply in_map, in_map; exact Im).
  apply in_map_iff in I2 as (op & E3 & I2). exists b, op. split; [exists true, [b]; split; [assumption|now left]|].
  split; [exists true, l2; auto|]. pose proof (get_erase op "name") as Y. rewrite E3, get_erase, D3 in Y. cbn [res_map erase] in Y.
  destruct (py_get op "name") as [w|]; [|discriminate]. injection Y as Y. destruct w; cbn in Y; try discriminate. congruence.
Qed.

Lemma library_reads O lim n c v tag ns efd : In c (map fst lib_classes) -> rt_typed O (lib_env lim) (TComplex c) v -> vdepth v <= n ->
  ncname_ok tag = true -> ns_good ns ->
  exists x, xml_of n O (lib_env lim) v tag ns efd = Ok x /\
    forall doc, received (lib_env lim) c x doc -> exists v', parse_obj n O (lib_env lim) c doc = Ok v' /\ erase v' = erase v.
Proof.
  intros Hc Hr Hd Ht Hn. destruct (roundtrip_wire O (lib_env lim) in_lib c v tag ns efd n (lib_rt O lim) Hc Hr Ht Hn Hd) as (x & X & Q).
  exists x. split; [exact X|]. intros doc (pretty & Hp & Hx). exact (Q pretty doc Hp Hx).
Qed.
