(** The references in a generated WSDL document resolve. *)
From Coq Require Import String Ascii List ZArith NArith Bool Lia.
From Verif Require Import PyBase PfBase PyRe Xml PyVal XsdSimple XsdComplex PyHttp Soap Client Dispatch LibClasses Py2Xsd SpecXsd
  Py2Wsdl SpecFacets SpecGenWsdl PfSimple PfXsd3 PfGenWsdl PfGenWsdl2.
Import ListNotations.
Open Scope string_scope.
Open Scope list_scope.
Open Scope nat_scope.

Definition is_wsdl (tag : string) (y : node) : bool := match y with Elem t _ _ => String.eqb t (clark ns_wsdl tag) | _ => false end.
Lemma filter_flat_nil {A B} (p : B -> bool) (f : A -> list B) l : (forall a, filter p (f a) = []) -> filter p (flat_map f l) = [].
Proof. intros H. induction l; cbn; [reflexivity|]. now rewrite filter_app, H, IHl. Qed.
Lemma filter_map_all {A B} (p : B -> bool) (f : A -> B) l : (forall a, p (f a) = true) -> filter p (map f l) = map f l.
Proof. intros H. induction l; cbn; [reflexivity|]. now rewrite H, IHl. Qed.
Lemma filter_flat_all {A B} (p : B -> bool) (f : A -> list B) l : (forall a, filter p (f a) = f a) -> filter p (flat_map f l) = flat_map f l.
Proof. intros H. induction l; cbn; [reflexivity|]. now rewrite filter_app, H, IHl. Qed.

Section doc.
  Variables (O : oracle) (E : env) (G : decls) (s : wservice).
  Let root := describe_service O E G s.
  Let v := ws_version s.
  Definition d_types : node := wel "types" [] (map (describe_schema O E G) (ws_schemas s)).
  Definition d_pt : node := wel "portType" [("name", ws_name s ++ "PortType")%string] (map describe_operation (ws_methods s)).
  Definition d_binding : node :=
    wel "binding" [("name", ws_name s ++ "Binding")%string; ("type", "tns:" ++ ws_name s ++ "PortType")%string]
        (map (describe_bound v) (ws_methods s) ++ [soap_el v "binding" [("style", "document"); ("transport", ns_soap_http)]]).
  Definition d_port : node :=
    wel "port" [("name", ws_name s ++ "Port")%string; ("binding", "tns:" ++ ws_name s ++ "Binding")%string]
           [soap_el v "address" [("location", ws_location s)]].
  Definition d_service : node := wel "service" [("name", ws_name s)] [d_port].
  Lemma root_kids : subnodes root = [d_types] ++ flat_map describe_messages (ws_methods s) ++ [d_pt] ++ [d_binding] ++ [d_service].
  Proof. reflexivity. Qed.

  Lemma kids_root tag : wsdl_kids tag root =
    filter (is_wsdl tag) [d_types] ++ filter (is_wsdl tag) (flat_map describe_messages (ws_methods s)) ++
    filter (is_wsdl tag) [d_pt] ++ filter (is_wsdl tag) [d_binding] ++ filter (is_wsdl tag) [d_service].
  Proof. unfold wsdl_kids. rewrite root_kids, !filter_app. reflexivity. Qed.
  Lemma kids_types : wsdl_kids "types" root = [d_types].
  Proof. rewrite kids_root. rewrite (filter_flat_nil _ describe_messages) by reflexivity. reflexivity. Qed.
  Lemma kids_messages : wsdl_kids "message" root = flat_map describe_messages (ws_methods s).
  Proof. rewrite kids_root. rewrite (filter_flat_all _ describe_messages) by reflexivity. cbn. apply app_nil_r. Qed.
  Lemma kids_pt : wsdl_kids "portType" root = [d_pt].
  Proof. rewrite kids_root. rewrite (filter_flat_nil _ describe_messages) by reflexivity. reflexivity. Qed.
  Lemma kids_binding : wsdl_kids "binding" root = [d_binding].
  Proof. rewrite kids_root. rewrite (filter_flat_nil _ describe_messages) by reflexivity. reflexivity. Qed.
  Lemma kids_service : wsdl_kids "service" root = [d_service].
  Proof. rewrite kids_root. rewrite (filter_flat_nil _ describe_messages) by reflexivity. reflexivity. Qed.
  Lemma kids_ptops : wsdl_kids "operation" d_pt = map describe_operation (ws_methods s).
  Proof. unfold wsdl_kids. cbn [d_pt subnodes wel]. now apply filter_map_all. Qed.
  Lemma kids_bops : wsdl_kids "operation" d_binding = map (describe_bound v) (ws_methods s).
  Proof.
    unfold wsdl_kids. cbn [d_binding subnodes wel]. rewrite filter_app, filter_map_all by reflexivity.
    replace (filter _ [soap_el _ _ _]) with (@nil node) by (destruct v; reflexivity). apply app_nil_r.
  Qed.

  Lemma is_named_eq n t a k : is_named n (Elem t (("name", n) :: a) k) = true.
  Proof. unfold is_named. cbn. apply String.eqb_refl. Qed.
  Lemma app_tail_inj a b c : (a ++ c)%string = (b ++ c)%string -> a = b.
  Proof. intros H. apply to_l_inj. apply (f_equal to_l) in H. rewrite !to_l_app in H. now apply app_inv_tail in H. Qed.
  Lemma in_out a b : (a ++ "Input")%string <> (b ++ "Output")%string.
  Proof.
    intros H. apply (f_equal to_l) in H. rewrite !to_l_app in H.
    apply (f_equal (fun l => nth 3 (rev l) "x"%char)) in H. rewrite !rev_app_distr in H. cbn in H. discriminate.
  Qed.

  Lemma named_ops l m : NoDup (map wm_op l) -> In m l -> filter (is_named (wm_op m)) (map describe_operation l) = [describe_operation m].
  Proof.
    induction l as [|x l IH]; cbn [map filter]; intros N [].
    - subst x. unfold describe_operation at 1, wel. rewrite is_named_eq. f_equal. inversion N; subst.
      clear -H1. induction l as [|y l IH]; [reflexivity|]. cbn [map filter]. unfold is_named at 1. cbn [attr_of describe_operation wel assoc].
      cbn. destruct (String.eqb_spec (wm_op y) (wm_op m)) as [E1|]; [|apply IH; cbn in H1; tauto].
      exfalso. apply H1. left. exact E1.
    - inversion N; subst. unfold is_named at 1. cbn [attr_of describe_operation wel assoc]. cbn.
      destruct (String.eqb_spec (wm_op x) (wm_op m)) as [E1|]; [|now apply IH].
      exfalso. apply H2. rewrite E1. now apply in_map.
  Qed.
  Lemma named_message l m n io : NoDup (map wm_op l) -> In m l -> In (n, io) [((wm_op m ++ "Input")%string, wm_in m); ((wm_op m ++ "Output")%string, wm_out m)] ->
    filter (is_named n) (flat_map describe_messages l) = [describe_message n io].
  Proof.
    assert (Skip : forall l, ~ In (wm_op m) (map wm_op l) -> n = (wm_op m ++ "Input")%string \/ n = (wm_op m ++ "Output")%string ->
      filter (is_named n) (flat_map describe_messages l) = []).
    { clear l. induction l as [|x l IH]; intros N Hn; [reflexivity|]. cbn [flat_map]. rewrite filter_app, IH by (cbn in N; tauto).
      rewrite app_nil_r. unfold describe_messages. cbn [filter]. unfold is_named. cbn [attr_of describe_message wel assoc]. cbn.
      destruct (String.eqb_spec (wm_op x ++ "Input") n) as [E1|].
      { destruct Hn as [Hn|Hn]; rewrite Hn in E1; [apply app_tail_inj in E1; exfalso; apply N; now left|now apply in_out in E1]. }
      destruct (String.eqb_spec (wm_op x ++ "Output") n) as [E1|]; [|reflexivity].
      destruct Hn as [Hn|Hn]; rewrite Hn in E1; [symmetry in E1; now apply in_out in E1|apply app_tail_inj in E1; exfalso; apply N; now left]. }
    intros N Hm Hn.
    assert (Hn' : n = (wm_op m ++ "Input")%string \/ n = (wm_op m ++ "Output")%string).
    { destruct Hn as [[= <- <-] | [[= <- <-] | []]]; auto. }
    induction l as [|x l IH]; [destruct Hm|]. cbn [map] in N. inversion N; subst. destruct Hm as [-> |Hm].
    - cbn [flat_map]. rewrite filter_app, Skip by assumption. rewrite app_nil_r. unfold describe_messages. cbn [filter].
      unfold is_named. cbn [attr_of describe_message wel assoc]. cbn.
      destruct Hn as [[= <- <-] | [[= <- <-] | []]].
      + rewrite String.eqb_refl. destruct (String.eqb_spec (wm_op m ++ "Output") (wm_op m ++ "Input")) as [E1|]; [|reflexivity].
        symmetry in E1. now apply in_out in E1.
      + rewrite String.eqb_refl. destruct (String.eqb_spec (wm_op m ++ "Input") (wm_op m ++ "Output")) as [E1|]; [|reflexivity].
        now apply in_out in E1.
    - cbn [flat_map]. rewrite filter_app, IH by assumption.
      replace (filter (is_named n) (describe_messages x)) with (@nil node); [reflexivity|]. symmetry.
      rewrite <- (Skip [x]); [cbn [flat_map]; now rewrite app_nil_r| |assumption].
      intros [E1|[]]. apply H1. rewrite E1. now apply in_map.
  Qed.

  Lemma colon_app a b : colon_free a -> colon_free b -> colon_free (a ++ b)%string.
  Proof. unfold colon_free. rewrite to_l_app, in_app_iff. tauto. Qed.

  Let doc := mkDoc (wsdl_prefixes s) root.
  Hypothesis Hr : referable s.

  Lemma points_tns tag n x : colon_free n -> filter (is_named n) (wsdl_kids tag root) = [x] -> points doc tag ("tns:" ++ n)%string x.
  Proof. intros Hn F. exists "tns", n, (ws_tns s). repeat split; assumption. Qed.
  Lemma service_points : points doc "binding" ("tns:" ++ ws_name s ++ "Binding")%string d_binding.
  Proof.
    apply (points_tns "binding" (ws_name s ++ "Binding")%string).
    - apply colon_app; [apply Hr|vm_compute; intuition discriminate].
    - rewrite kids_binding. cbn [filter]. unfold d_binding at 1, wel. now rewrite is_named_eq.
  Qed.
  Lemma binding_points : points doc "portType" ("tns:" ++ ws_name s ++ "PortType")%string d_pt.
  Proof.
    apply (points_tns "portType" (ws_name s ++ "PortType")%string).
    - apply colon_app; [apply Hr|vm_compute; intuition discriminate].
    - rewrite kids_pt. cbn [filter]. unfold d_pt at 1, wel. now rewrite is_named_eq.
  Qed.
  Lemma message_points m n io : In m (ws_methods s) ->
    In (n, io) [((wm_op m ++ "Input")%string, wm_in m); ((wm_op m ++ "Output")%string, wm_out m)] ->
    points doc "message" ("tns:" ++ n)%string (describe_message n io).
  Proof.
    intros Hm Hn. apply points_tns.
    - destruct Hr as (_ & C & _). rewrite Forall_forall in C. specialize (C m Hm).
      destruct Hn as [[= <- <-] | [[= <- <-] | []]]; (apply colon_app; [assumption|vm_compute; intuition discriminate]).
    - rewrite kids_messages. apply named_message with (m := m); [apply Hr|assumption|assumption].
  Qed.

  Lemma doc_consistent : consistent doc.
  Proof.
    unfold consistent. cbn [xd_root doc]. fold root. split; [|split].
    - intros sv p. rewrite kids_service. intros [<- |[]]. intros [<- |[]]. exists d_binding, ("tns:" ++ ws_name s ++ "Binding")%string.
      split; [reflexivity|apply service_points].
    - intros b. rewrite kids_binding. intros [<- |[]]. exists d_pt. split.
      + exists ("tns:" ++ ws_name s ++ "PortType")%string. split; [reflexivity|apply binding_points].
      + intros o. rewrite kids_bops. intros (m & <- & Hm)%in_map_iff. exists (wm_op m), (describe_operation m).
        split; [reflexivity|]. rewrite kids_ptops. apply named_ops; [apply Hr|assumption].
    - intros t o. rewrite kids_pt. intros [<- |[]]. rewrite kids_ptops. intros (m & <- & Hm)%in_map_iff.
      intros tag d [<- |[<- |[]]]; intros [<- |[]].
      + eexists _, _. split; [reflexivity|]. apply (message_points m (wm_op m ++ "Input")%string (wm_in m)); [assumption|now left].
      + eexists _, _. split; [reflexivity|]. apply (message_points m (wm_op m ++ "Output")%string (wm_out m)); [assumption|right; now left].
  Qed.

  Lemma declares_ref io : io_describable io -> declares_io io (wel "part" (("name", "body") :: io_ref io) []).
  Proof. destruct io; cbn; auto. Qed.
  Lemma doc_leads m tag io : In m (ws_methods s) -> In (tag, io) [("input", wm_in m); ("output", wm_out m)] ->
    leads_to doc (ws_name s) (wm_op m) tag (wel "part" (("name", "body") :: io_ref io) []).
  Proof.
    intros Hm Ht. unfold leads_to. cbn [xd_root doc]. fold root.
    assert (X : exists d n, wsdl_kids tag (describe_operation m) = [d] /\ attr_of "message" d = Some ("tns:" ++ n)%string /\
      In (n, io) [((wm_op m ++ "Input")%string, wm_in m); ((wm_op m ++ "Output")%string, wm_out m)]).
    { destruct Ht as [[= <- <-] | [[= <- <-] | []]]; eexists _, _; (split; [reflexivity|]; split; [reflexivity|]); [now left|right; now left]. }
    destruct X as (d & n & Hd & Ha & Hn).
    exists d_service, d_port, d_binding, d_pt, (describe_bound v m), (describe_operation m), d, (describe_message n io).
    split; [rewrite kids_service; now left|]. split; [reflexivity|]. split; [now left|].
    split; [exists ("tns:" ++ ws_name s ++ "Binding")%string; split; [reflexivity|apply service_points]|].
    split; [rewrite kids_bops; now apply in_map|]. split; [reflexivity|].
    split; [exists ("tns:" ++ ws_name s ++ "PortType")%string; split; [reflexivity|apply binding_points]|].
    split; [rewrite kids_ptops; now apply in_map|]. split; [reflexivity|]. split; [exact Hd|].
    split; [|reflexivity]. exists ("tns:" ++ n)%string. split; [exact Ha|]. now apply message_points with (m := m).
  Qed.
End doc.
