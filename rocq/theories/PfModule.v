(** Proofs about whole modules generated from the WSDL document of a service (C81). *)
From Coq Require Import String Ascii List ZArith NArith Bool Lia Permutation.
From Verif Require Import PyBase PfBase PyRe Xml PyVal XsdSimple XsdComplex XsdMeta XsdSchema PyHttp Soap Dispatch Client LibClasses Py2Xsd SpecXsd Py2Wsdl GenOrder SpecOrder Xsd2Py PyLoad XsdPrefixes
  PyUrl Wsdl2Py PyService PyModule
  SpecParse SpecRound SpecNames SpecGenCode SpecGenWsdl SpecUrl SpecService SpecRegen SpecLoadable SpecReclass SpecExchange SpecModule
  PfXsd PfXsd2 PfGenWsdl PfGenWsdl2 PfGenWsdl6 PfGenCode PfLoad PfLoadable PfService PfService2 PfService3 PfService4 PfService5 PfRegen PfRegen2 PfReclass PfReclass2 PfReclass3 PfExchange.
Import ListNotations.
Local Notation plan_of := PfReclass.plan_of.
Open Scope nat_scope.
Open Scope string_scope.
Open Scope list_scope.

Lemma outside_xsd x : ~ In x [ns_xsd; ns_xsd2000] -> str_in x [ns_xsd; ns_xsd2000] = false.
Proof. intros N. unfold str_in. apply not_true_iff_false. rewrite existsb_exists. intros (y & I & E). apply String.eqb_eq in E. subst y. contradiction. Qed.

Section Document.
  Variables (O : oracle) (lim : nat) (E : env) (G : decls) (limit : nat) (rank : gschema -> string -> nat) (k : nat) (s : wservice) (a : address) (doc : xdocument) (root : node).
  Hypothesis Hd : service_describable O E G s.
  Hypothesis Hr : referable s.
  Hypothesis Hg : service_regenerable s a.
  Hypothesis Hw : generate_wsdl (10 + k) O (lib_env lim) E G s = Ok doc.
  Hypothesis Hl : layout (wire (xd_root doc)) root.
  Hypothesis Rs : Forall (fun sc => schema_reproducible E G limit (rank sc) sc) (ws_schemas s).
  Hypothesis Nt : ~ In (ws_tns s) [ns_xsd; ns_xsd2000].

  Lemma objects_state objs : mapM (generate_xsdspec O (lib_env lim) E G) (ws_schemas s) = Ok objs ->
    Forall2 (fun o sc => states_schema o (plan_of E sc)) objs (ws_schemas s).
  Proof.
    destruct Hd as (_ & _ & _ & _ & Ds & _). revert objs. induction (ws_schemas s) as [|sc l IH]; intros objs M.
    - injection M as <-. constructor.
    - cbn [mapM] in M. apply bind_ok in M as (o & Mo & M). apply bind_ok in M as (os & Mos & M). injection M as <-.
      inversion Ds; subst. inversion Rs; subst. constructor; [|now apply IH].
      match goal with R : schema_reproducible _ _ _ _ sc |- _ => assert (R' := R) end. destruct R' as (_ & _ & Ei & En & _).
      rewrite (schema_exact O lim E G sc) in Mo by assumption. injection Mo as <-. eapply schema_states; eassumption.
  Qed.
  Lemma document_objects : exists d types b b' l,
    parse_obj (10 + k) O (lib_env lim) (wn (version_from_xml root) "Definitions") root = Ok d /\
    states_document d (ws_tns s) (map gs_tns (ws_schemas s)) [[Some (PfRegen.plan_of s a)]] /\
    has d "imports" (VList b []) /\ has d "types" types /\ py_truthy types = true /\ has types "schemas" (VList b' l) /\
    Forall2 (fun o sc => states_schema o (plan_of E sc)) l (ws_schemas s).
  Proof.
    destruct (regen_read O lim E G k s a doc root Hd Hr Hg Hw Hl) as (d & P & St).
    pose proof Hd as (_ & _ & _ & _ & Hs & Hm). destruct (schemas_rt O lim E G k _ Hs) as (objs & M & _ & _).
    pose proof P as P'. rewrite (regen_version O lim E G k s doc root Hd Hw Hl) in P'.
    destruct (wsdl_erased O lim E G k s doc _ root Hd Hw (build_ok O lim _ E G s objs Hm M)) as (objs' & d' & Eo & Pd & Q).
    { exists root. split; [exact Hl|now left]. }
    assert (X : objs = objs').
    { set (get := fun d => match d with VObj _ _ fs => match assoc "types" fs with Some (VObj _ _ f2) => match assoc "schemas" f2 with Some (VList _ l) => l | _ => [] end | _ => [] end | _ => [] end).
      apply (f_equal get) in Eo. destruct (ws_version s); exact Eo. }
    subst objs'. rewrite P' in Pd. injection Pd as <-. rewrite erase_defs in Q.
    assert (H1 : has (erase d) "imports" (VList true [])) by (rewrite Q; apply has_ob; destruct (ws_version s); reflexivity).
    assert (H2 : has (erase d) "types" (o_types (ws_version s) true (map erase objs))) by (rewrite Q; apply has_ob; destruct (ws_version s); reflexivity).
    apply has_list in H1 as (l1 & H1 & E1). apply map_eq_nil in E1. subst l1. apply has_erase in H2 as (types & H2 & E2).
    assert (H3 : has (erase types) "schemas" (VList true (map erase objs))) by (rewrite E2; apply has_ob; destruct (ws_version s); reflexivity).
    apply has_list in H3 as (l & H3 & E3). exists d, types, true, true, l. split; [exact P|]. split; [exact St|]. split; [exact H1|]. split; [exact H2|]. split.
    - destruct types; try (destruct (ws_version s); discriminate E2). reflexivity.
    - split; [exact H3|]. pose proof (objects_state objs M) as F. clear - F E3. revert l E3.
      induction F as [|o sc objs scs So F IH]; intros [|x l] E3; try discriminate E3; constructor; injection E3 as Eh Et; [|now apply IH].
      apply (schema_alike o); [|exact So]. now rewrite <- (data_erase x), Eh, data_erase.
  Qed.

  Lemma wsdl_nss : document_xsd_prefixes doc root = nss_x.
  Proof.
    pose proof Hw as W. rewrite generate_wsdl_ok in W by exact Hd. injection W as <-. unfold document_xsd_prefixes, find_xsd_namespaces, document_prefixes, xd_prefixes.
    set (p := map _ (wsdl_prefixes s)).
    assert (X : forall q, nsmap_update p p = p -> fold_left nsmap_update (map (fun _ : node => p) q) p = p).
    { intros q H. induction q as [|y q IH]; [reflexivity|]. cbn [map fold_left]. now rewrite H. }
    assert (Hn : hd_error (ws_schemas s) <> None). { destruct Hd as (_ & _ & _ & Hs & _). destruct (ws_schemas s); [congruence|discriminate]. }
    assert (Hs : forall sc, In sc (ws_schemas s) -> ~ In (gs_tns sc) [ns_xsd; ns_xsd2000]). { intros sc I. rewrite Forall_forall in Rs. apply (Rs sc I). }
    rewrite X.
    - subst p. unfold wsdl_prefixes. clear X. destruct (ws_schemas s) as [|sc rest] eqn:Es; [now elim Hn|].
      assert (N1 := outside_xsd _ (Hs sc (or_introl eq_refl))). assert (N2 := outside_xsd _ Nt).
      cbn [map fst snd filter]. rewrite N1, N2. destruct (ws_version s); reflexivity.
    - subst p. unfold wsdl_prefixes. destruct (ws_schemas s); reflexivity.
  Qed.
End Document.

(** ** The elements of the schema and the names of the classes *)
Lemma numbered {A} (l : list (string * A)) : forall j name x, assoc name l = Some x ->
  exists i, nth_error l i = Some (name, x) /\ assoc name (combine (map fst l) (seq j (length l))) = Some (j + i).
Proof.
  induction l as [|[k y] l IH]; intros j name x H; [discriminate|]. cbn [assoc map fst length seq combine] in *.
  destruct (String.eqb_spec name k) as [-> | N].
  - injection H as ->. exists 0. split; [reflexivity|]. now rewrite Nat.add_0_r.
  - destruct (IH (S j) name x H) as (i & Hi & Ha). exists (S i). split; [exact Hi|]. now rewrite Ha, Nat.add_succ_comm.
Qed.
Lemma combine_names {A} (l : list (string * A)) j : map fst (combine (map fst l) (seq j (length l))) = map fst l.
Proof. revert j. induction l as [|[k y] l IH]; intros j; [reflexivity|]. cbn [map fst length seq combine]. now rewrite IH. Qed.
Lemma bind_all_other l : forall d n, ~ In n (map fst l) -> assoc n (bind_all d l) = assoc n d.
Proof.
  induction l as [|[k y] l IH]; intros d n H; [reflexivity|]. cbn [map fst In] in H. change (assoc n (bind_all (assoc_set k y d) l) = assoc n d).
  rewrite IH by tauto. apply assoc_set_other. intuition congruence.
Qed.
Lemma bind_all_in l : NoDup (map fst l) -> forall d n x, In (n, x) l -> assoc n (bind_all d l) = Some x.
Proof.
  induction l as [|[k y] l IH]; intros N d n x I; [contradiction|]. inversion N as [|? ? Nk Nl]; subst. change (assoc n (bind_all (assoc_set k y d) l) = Some x).
  destruct I as [I | I].
  - injection I as -> ->. rewrite bind_all_other by exact Nk. apply assoc_set_same.
  - now apply IH.
Qed.

Section Module.
  Variables (sort : sorter) (n : nat) (rt : runtime) (limit : nat) (O : oracle) (lim : nat) (E : env) (G : decls) (rank : string -> nat) (k : nat).
  Variables (md5 : string -> string) (checked : string -> bool) (s : wservice) (a : address) (sc : gschema) (doc : xdocument) (root : node).
  Hypothesis LS : list_sort sort.
  Hypothesis Hn : 0 < n.
  Hypothesis Hd : service_describable O E G s.
  Hypothesis Hr : referable s.
  Hypothesis Hg : service_regenerable s a.
  Hypothesis Hs : ws_schemas s = [sc].
  Hypothesis R : schema_reproducible E G limit rank sc.
  Hypothesis Nt : ~ In (ws_tns s) [ns_xsd; ns_xsd2000].
  Hypothesis Hx : hex5 (md5 (gs_tns sc)).
  Hypothesis Hw : generate_wsdl (10 + k) O (lib_env lim) E G s = Ok doc.
  Hypothesis Hl : layout (wire (xd_root doc)) root.

  Definition var_of : string := ("Schema_" ++ md5 (gs_tns sc))%string.
  Definition service_part (server : bool) : list wstmt := flat_map (port_stmts md5 server (ws_version s) (ws_tns s) [gs_tns sc]) [PfRegen.plan_of s a].

  Lemma describable_schema : schema_describable O E G sc.
  Proof. destruct Hd as (_ & _ & _ & _ & Ds & _). rewrite Hs in Ds. now inversion Ds. Qed.
  Lemma code_made server : (server = true -> server_regenerable s) ->
    exists o code m, states_schema o (plan_of E sc) /\ schema_to_py sort n nss_x [] o = Ok code /\ load rt limit O code = Ok m /\
    code_for_wsdl sort n (10 + k) O (lib_env lim) md5 checked server (document_xsd_prefixes doc root) root = Ok (mkWc [(var_of, code)] (service_part server)).
  Proof.
    intros Sr. assert (Rs : Forall (fun sc => schema_reproducible E G limit rank sc) (ws_schemas s)) by (rewrite Hs; constructor; [exact R|constructor]).
    destruct (document_objects O lim E G limit (fun _ => rank) k s a doc root Hd Hr Hg Hw Hl Rs) as (d & types & b & b' & l & P & St & Hi & Ht & Tt & Hsc & F).
    rewrite Hs in F. inversion F as [|o ? ? ? So F0]; subst. inversion F0; subst. clear F F0.
    destruct (o_classes sort n rt limit O E G sc rank LS Hn describable_schema R o So) as (m & Im & _). unfold import_schema in Im. apply bind_ok in Im as (code & C & L).
    exists o, code, m. split; [exact So|]. split; [exact C|]. split; [exact L|].
    rewrite (wsdl_nss O lim E G limit (fun _ => rank) k s doc root Hd Hw Hl Rs Nt).
    unfold code_for_wsdl. rewrite P. cbn [bind]. rewrite (has_get _ _ _ Hi). cbn [bind jlist]. rewrite (has_get _ _ _ Ht). cbn [bind]. rewrite Tt, (has_get _ _ _ Hsc). cbn [bind jlist].
    assert (Re : map sd_code (reorder_schemas (map schema_entry [o])) = [o]).
    { unfold reorder_schemas. cbn [map length reorder_loop]. reflexivity. }
    rewrite Re. cbn [mapM]. rewrite C. cbn [bind].
    assert (Sv : schema_var md5 o = Ok var_of).
    { destruct So as (Tn & _). unfold schema_var, schema_name. rewrite (has_get _ _ _ Tn). destruct Tn as (c & xe & fs & -> & _). reflexivity. }
    rewrite Sv. cbn [bind]. rewrite (regen_version O lim E G k s doc root Hd Hw Hl) in *.
    rewrite (document_code md5 checked server (ws_version s) d (ws_tns s) (map gs_tns (ws_schemas s)) [[Some (PfRegen.plan_of s a)]] St (regen_usable O E G s a Hd Hr Hg)).
    - rewrite Hs. reflexivity.
    - intros Es. apply (regen_server s a Hg (Sr Es)).
  Qed.

  Definition elements_at (m : module) : elements_of := combine (map fst (md_elements m)) (seq (length (w_store (ms_world (md_state m)))) (length (md_elements m))).
  Definition class_binds (m : module) : list (string * wval) := map (fun c => (fst c, class_value (snd c))) (ms_names (md_state m)).
  Definition state_before (m : module) : wstate :=
    mkWst (mkWorld (w_store (ms_world (md_state m)) ++ map (fun e => top_element (fst (snd e))) (md_elements m)) (w_classes (ms_world (md_state m))))
      (assoc_set var_of (WvSchema (elements_at m)) (bind_all [] (class_binds m))).
  Lemma schema_run code m services : load rt limit O code = Ok m ->
    run_module rt limit O (mkWc [(var_of, code)] services) = (st <- exec_service rt 0 (state_before m) services ;; Ok (mkWmod [m] st)).
  Proof.
    unfold load, load_from. intros L. apply bind_ok in L as (ms & F & X). unfold run_module. cbn [wc_schemas wc_services foldM].
    assert (I : identifier var_of = true) by now apply hex_ident. unfold run_schema at 1. rewrite I. cbn [negb]. rewrite F. cbn [bind]. rewrite X. cbn [bind].
    rewrite <- (map_map (fun e => top_element (fst (snd e))) NewElement), exec_news. cbn [bind app ms_names start length skipn]. reflexivity.
  Qed.
  Lemma bound_before m : schemas_bound md5 (state_before m) [gs_tns sc] [elements_at m].
  Proof. constructor; [|constructor]. cbn [state_before st_names]. apply assoc_set_same. Qed.
  Lemma offers_before m names : offers (mkWst (st_world (state_before m)) names) m (elements_at m).
  Proof.
    split; [apply combine_names|]. intros name t sg A. unfold elements_at. destruct (numbered _ (length (w_store (ms_world (md_state m)))) _ _ A) as (i & Hi & Ha).
    eexists _, (top_element t). split; [exact Ha|]. split; [|split; reflexivity]. cbn [state_before st_world w_store].
    rewrite nth_error_app2 by lia. replace (_ + i - _) with i by lia. now rewrite nth_error_map, Hi.
  Qed.
  Lemma classes_before m c i : NoDup (map fst (ms_names (md_state m))) -> c <> var_of -> assoc c (ms_names (md_state m)) = Some (MComplex i) ->
    assoc c (st_names (state_before m)) = Some (WvClass i).
  Proof.
    intros N Nv A. cbn [state_before st_names]. rewrite assoc_set_other by congruence. apply bind_all_in.
    - unfold class_binds. rewrite map_map. exact N.
    - unfold class_binds. apply in_map_iff. exists (c, MComplex i). split; [reflexivity|]. clear - A. induction (ms_names (md_state m)) as [|[k y] l IH]; [discriminate|].
      cbn [assoc] in A. destruct (String.eqb_spec c k) as [-> | Nk]; [injection A as ->; now left|right; auto].
  Qed.

  Definition final (server : bool) (m : module) : wstate :=
    binds (state_before m) (flat_map (port_binds server (ws_version s) (ws_tns s) [elements_at m]) [PfRegen.plan_of s a]).
  Lemma services_run server m : (server = true -> server_regenerable s) -> (server = false -> client_regenerable s) ->
    exec_service rt 0 (state_before m) (service_part server) = Ok (final server m).
  Proof.
    intros Sr Cr.
    refine (document_run md5 server (ws_version s) (ws_tns s) [gs_tns sc] [[Some (PfRegen.plan_of s a)]] (regen_usable O E G s a Hd Hr Hg) _ rt 0 [elements_at m] (state_before m) _ _ (bound_before m) _).
    - intros Es. apply (regen_server s a Hg (Sr Es)).
    - apply Hg.
    - intros x [<- | []]. exact Hx.
    - intros Es. apply (regen_client s a Hg (Cr Es)).
  Qed.
  Lemma module_made server : (server = true -> server_regenerable s) -> (server = false -> client_regenerable s) ->
    exists o m, states_schema o (plan_of E sc) /\ import_schema sort n rt limit O nss_x o = Ok m /\
      import_wsdl sort n rt limit (10 + k) O (lib_env lim) md5 checked server doc root = Ok (mkWmod [m] (final server m)).
  Proof.
    intros Sr Cr. destruct (code_made server Sr) as (o & code & m & So & C & L & W). exists o, m. split; [exact So|].
    split. { unfold import_schema. rewrite C. exact L. }
    unfold import_wsdl. rewrite W. cbn [bind]. rewrite (schema_run code m _ L), (services_run server m Sr Cr). reflexivity.
  Qed.

  Lemma final_names server m c : ~ In c (service_names server s) -> assoc c (st_names (final server m)) = assoc c (st_names (state_before m)).
  Proof.
    intros N. apply binds_other. intros I. apply N. clear N. cbn [flat_map] in I. rewrite app_nil_r in I. unfold port_binds, service_names in *.
    rewrite !map_app in I. cbn [PfRegen.plan_of po_ops po_name] in I. apply in_app_or in I. destruct I as [I | I].
    - apply in_or_app. right. destruct server; [|contradiction I]. right. rewrite map_map in I. cbn [fst fn_bind] in I. rewrite map_map in I. exact I.
    - apply in_app_or in I. apply in_or_app. destruct I as [I | I].
      + left. rewrite !map_map in I. exact I.
      + right. destruct server; exact I || cbn in *; intuition.
  Qed.
  Lemma module_offers server m : offers (final server m) m (elements_at m).
  Proof.
    pose proof (offers_before m (st_names (final server m))) as X. unfold offers in *. cbn [st_world] in X. unfold final. rewrite binds_world. exact X.
  Qed.
  Lemma module_classes server o m : states_schema o (plan_of E sc) -> import_schema sort n rt limit O nss_x o = Ok m ->
    forall c, In c (gs_complex sc) -> c <> var_of -> ~ In c (service_names server s) ->
    exists i, assoc c (ms_names (md_state m)) = Some (MComplex i) /\ assoc c (st_names (final server m)) = Some (WvClass i).
  Proof.
    intros So Im c I Nv Ns. destruct (o_classes sort n rt limit O E G sc rank LS Hn describable_schema R o So) as (m' & Im' & Pm & _). rewrite Im in Im'. injection Im' as <-.
    unfold import_schema in Im. apply bind_ok in Im as (code & C & L).
    destruct (kinds sort n rt limit O E G sc rank LS Hn describable_schema R o So code m C L) as [_ Kc]. destruct (Kc c I) as (i & A). exists i. split; [exact A|].
    rewrite final_names by exact Ns. apply classes_before; [|exact Nv|exact A].
    apply (Permutation_NoDup (l := class_names sc)); [now apply Permutation_sym|]. apply R.
  Qed.

  (** ** The services of the module *)
  Lemma client_module : client_regenerable s -> exists w m els g t,
    import_wsdl sort n rt limit (10 + k) O (lib_env lim) md5 checked false doc root = Ok w /\ wl_schemas w = [m] /\
    offers (wl_state w) m els /\ regenerated (wl_state w) [els] s g /\
    assoc ((ws_name s ++ "Port") ++ "ServiceStub")%string (st_names (wl_state w)) = Some (WvStub t) /\ gt_service t = g /\
    stub_posts_to t = Ok (ws_location s) /\
    (forall m, In m (ws_methods s) -> callable_name (wm_op m) -> ~ In "call" (map wm_op (ws_methods s)) -> stub_operation t (wm_op m) = Some (wm_op m)).
  Proof.
    intros Cr. destruct (module_made false) as (o & m & So & Im & W); [discriminate|now intros _|].
    pose proof (regen_usable O E G s a Hd Hr Hg) as Hu. pose proof (regen_client s a Hg Cr) as Hcl.
    assert (Hso : false = true -> Forall (fun p => Forall server_op (po_ops p)) (soap_ports [[Some (PfRegen.plan_of s a)]]) /\ soap_first [[Some (PfRegen.plan_of s a)]]) by discriminate.
    assert (I : In (PfRegen.plan_of s a) (soap_ports [[Some (PfRegen.plan_of s a)]])) by now left.
    eexists _, m, (elements_at m), _, _. split; [exact W|]. split; [reflexivity|]. cbn [wl_state]. split; [apply module_offers|].
    split. { split; [exact (service_held false _ _ _ Hso [elements_at m] (state_before m) (fun _ => Hcl) (regen_names s a) _ I)|]. repeat (split; [reflexivity|]). now apply (regen_same s a). }
    split; [exact (stub_held false _ _ _ Hso [elements_at m] (state_before m) (fun _ => Hcl) (regen_names s a) _ eq_refl I)|]. split; [reflexivity|].
    split. { pose proof Hg as (_ & _ & -> & _). apply (plan_posts_to _ _ _ (PfRegen.plan_of s a)). rewrite Forall_forall in Hu. now apply Hu. }
    intros x Ix Cm Nc. change (wm_op x) with (op_name (plan_op x)). apply plan_operation; [now apply (in_map plan_op)|exact Cm|]. cbn [PfRegen.plan_of po_ops]. rewrite map_map. exact Nc.
  Qed.
  Lemma server_module : server_regenerable s -> exists w m els g,
    import_wsdl sort n rt limit (10 + k) O (lib_env lim) md5 checked true doc root = Ok w /\ wl_schemas w = [m] /\
    offers (wl_state w) m els /\ regenerated (wl_state w) [els] s g /\ Forall2 calls_function (ws_methods s) (gv_methods g).
  Proof.
    intros Sr. destruct (module_made true) as (o & m & So & Im & W); [now intros _|discriminate|].
    assert (Hso : true = true -> Forall (fun p => Forall server_op (po_ops p)) (soap_ports [[Some (PfRegen.plan_of s a)]]) /\ soap_first [[Some (PfRegen.plan_of s a)]]) by (intros _; now apply (regen_server s a)).
    assert (Hcl : true = false -> Forall (fun p => Forall client_op (po_ops p)) (soap_ports [[Some (PfRegen.plan_of s a)]])) by discriminate.
    assert (I : In (PfRegen.plan_of s a) (soap_ports [[Some (PfRegen.plan_of s a)]])) by now left.
    eexists _, m, (elements_at m), _. split; [exact W|]. split; [reflexivity|]. cbn [wl_state]. split; [apply module_offers|].
    split. { split; [exact (service_held true _ _ _ Hso [elements_at m] (state_before m) Hcl (regen_names s a) _ I)|]. repeat (split; [reflexivity|]). now apply (regen_same s a). }
    exact (regen_functions s a Hg).
  Qed.

  (** ** Its classes *)
  Section Imported.
    Variables (server : bool) (w : wmodule).
    Hypothesis Dir : if server then server_regenerable s else client_regenerable s.
    Hypothesis W : import_wsdl sort n rt limit (10 + k) O (lib_env lim) md5 checked server doc root = Ok w.
    Lemma came_from : exists o m, states_schema o (plan_of E sc) /\ import_schema sort n rt limit O nss_x o = Ok m /\ w = mkWmod [m] (final server m).
    Proof.
      destruct (module_made server) as (o & m & So & Im & W'); [intros ->; exact Dir|intros ->; exact Dir|]. rewrite W in W'. injection W' as ->. eauto.
    Qed.
    Lemma m_classes : exists m, wl_schemas w = [m] /\
      Permutation (map fst (ms_names (md_state m))) (class_names sc) /\
      forall c d, In c (gs_complex sc) -> e_cls E c = Some d ->
        (exists fs, new_instance O (module_env limit (md_state m)) c = Ok fs) /\
        (exists d', module_class m c d' /\ same_class m c d d' /\ cd_schema d' = Some {| si_tns := Some (gs_tns sc); si_efd := gs_efd sc |}) /\
        (c <> ("Schema_" ++ md5 (gs_tns sc))%string -> ~ In c (service_names server s) ->
         exists i, assoc c (ms_names (md_state m)) = Some (MComplex i) /\ assoc c (st_names (wl_state w)) = Some (WvClass i)).
    Proof.
      destruct came_from as (o & m & So & Im & ->). exists m. split; [reflexivity|].
      destruct (o_classes sort n rt limit O E G sc rank LS Hn describable_schema R o So) as (m' & Im' & Pm & N). rewrite Im in Im'. injection Im' as <-. split; [exact Pm|].
      intros c d I H. split; [now apply N|]. split; [exact (o_same sort n rt limit O E G sc rank LS Hn describable_schema R o So m Im c d I H)|].
      intros Nv Ns. exact (module_classes server o m So Im c I Nv Ns).
    Qed.
    Lemma m_elements : exists m, wl_schemas w = [m] /\ map fst (md_elements m) = map fst (gs_elements sc) /\
      forall name el, In (name, el) (gs_elements sc) ->
      exists t, assoc name (md_elements m) = Some (t, option_map written_group (ge_subst el)) /\
        if ge_class el then same_type m (ge_type el) t
        else t = TComplex (capital name) /\ exists c d d', ge_type el = TComplex c /\ e_cls E c = Some d /\ module_class m (capital name) d' /\ same_class m (capital name) d d'.
    Proof.
      destruct came_from as (o & m & So & Im & ->). exists m. split; [reflexivity|]. split; [exact (o_names sort n rt limit O E G sc rank LS R o So m Im)|].
      exact (o_elements sort n rt limit O E G sc rank LS Hn describable_schema R o So m Im).
    Qed.
    Hypothesis Fa : schema_faithful rt E sc.
    Hypothesis Lm : limit <= e_limit E.
    Lemma m_exchange : exists m, wl_schemas w = [m] /\
      (forall c, In c (gs_complex sc) -> forall j y, parse_obj j O (module_env limit (md_state m)) c y = parse_obj j O E c y) /\
      (forall v, made_of (gs_complex sc) v -> forall j tag ns efd, xml_of j O (module_env limit (md_state m)) v tag ns efd = xml_of j O E v tag ns efd) /\
      (forall c kw, In c (gs_complex sc) -> flat E sc -> Forall (fun p => made_of (gs_complex sc) (snd p)) kw ->
        construct O (module_env limit (md_state m)) c kw = construct O E c kw).
    Proof.
      destruct came_from as (o & m & So & Im & ->). exists m. split; [reflexivity|].
      split; [exact (o_reads_same sort n rt limit O E G sc rank o LS Hn describable_schema R Fa So m Im Lm)|].
      split; [exact (o_xml_same sort n rt limit O E G sc rank o LS Hn describable_schema R Fa So m Im)|].
      exact (o_builds_same sort n rt limit O E G sc rank o LS Hn describable_schema R Fa So m Im Lm).
    Qed.
  End Imported.
End Module.
