(** Making a dispatcher, continued: what it serves. *)
From Coq Require Import String Ascii List ZArith Bool Lia Arith.
From Verif Require Import PyBase Xml PyVal XsdSimple XsdComplex XsdSchema PyHttp Soap Client Dispatch LibClasses Py2Xsd Py2Wsdl
  SpecParse SpecSchema SpecSimple SpecHttp SpecDispatch SpecXsd SpecGenWsdl Serve SpecServe PfBase PfSchema PfServe PfServe2
  PfDispatch PfDispatch2 PfDispatch3 PropXsd PropGenWsdl.
Import ListNotations.
Open Scope nat_scope.
Open Scope string_scope.
Open Scope list_scope.

Section Make.
  Variables (O : oracle) (lim : nat) (E : env) (G : decls) (graph : sgraph) (parts : nat -> gschema) (show : xdocument -> string)
    (compile : (string -> res xdocument) -> xdocument -> res (node -> res unit)).
  Notation so := (schema_object graph parts).
  Notation doc t := (xsd_document O E G (so t)).

  Lemma object_located s : (forall t, imports_of graph s t -> exists l, s_location (graph t) = Some l /\ plain_location l) -> located (so s).
  Proof.
    intros H. split; intros i Hi; cbn [schema_object gs_imports gs_includes] in Hi; apply in_map_iff in Hi as (t & <- & Ht).
    - destruct (H t (or_introl Ht)) as (l & Hl & P & _). exists l. split; [exact Hl|exact P].
    - destruct (H t (or_intror Ht)) as (l & Hl & P & _). exists l. split; [exact Hl|exact P].
  Qed.
  Lemma object_refers s l : (forall t, imports_of graph s t -> exists l, s_location (graph t) = Some l /\ plain_location l) ->
    refers_to (describe_schema O E G (with_links (so s))) l <-> exists t l0, imports_of graph s t /\ s_location (graph t) = Some l0 /\ l = link l0.
  Proof.
    intros H. rewrite schema_refers. cbn [with_links gs_imports gs_includes schema_object]. split.
    - intros (_ & [(ns & I) | I]).
      + rewrite map_map in I. apply in_map_iff in I as (t & I & Ht). cbn [fst snd] in I. injection I as _ I. destruct (H t (or_introl Ht)) as (l0 & Hl & _). rewrite Hl in I. injection I as <-.
        exists t, l0. split; [now left|]. auto.
      + rewrite map_map in I. apply in_map_iff in I as (t & I & Ht). destruct (H t (or_intror Ht)) as (l0 & Hl & _). rewrite Hl in I. injection I as <-.
        exists t, l0. split; [now right|]. auto.
    - intros (t & l0 & I & Hl & ->). split; [discriminate|]. destruct I as [I|I].
      + left. exists (gs_tns (parts t)). rewrite map_map. apply in_map_iff. exists t. cbn [fst snd]. rewrite Hl. auto.
      + right. rewrite map_map. apply in_map_iff. exists t. rewrite Hl. auto.
  Qed.

  Section W.
    Context {W : Type} (F : full_service W) (root : nat) (locs : list (option string)) (k : nat).
    Hypothesis one : sv_schemas (fs_service F) = [root].
    Hypothesis sdesc : service_describable O E G (service_object graph parts F).
    Hypothesis bdesc : forall t, below graph [root] t -> schema_describable O E G (so t).
    Hypothesis wl : well_located graph [root].
    Hypothesis inlocs : forall t, below graph [root] t -> In (s_location (graph t)) locs.
    Hypothesis deep : length locs < 10 + k.

    Lemma root_describable : schema_describable O E G (so root).
    Proof. destruct sdesc as (_ & _ & _ & _ & H & _). cbn [service_object ws_schemas] in H. rewrite one in H. now inversion H. Qed.
    Lemma xsd_of_ok t : t = root \/ below graph [root] t -> xsd_of (10 + k) O (lib_env lim) E G graph parts t = Ok (doc t).
    Proof.
      intros H. unfold xsd_of. change (10 + k) with (8 + (2 + k)). rewrite C55_partial; [reflexivity|]. destruct H as [-> | H]; [apply root_describable|auto].
    Qed.
    Lemma under s : s = root \/ below graph [root] s -> forall t, imports_of graph s t -> below graph [root] t.
    Proof. intros [-> | H] t I; [eapply below_first; eauto; now left|eapply below_step; eauto]. Qed.
    Lemma near s : s = root \/ below graph [root] s -> forall t, imports_of graph s t -> exists l, s_location (graph t) = Some l /\ plain_location l.
    Proof. intros H t I. apply (proj1 wl). eapply under; eauto. Qed.
    Lemma relinked_ok t : below graph [root] t -> relinked show (doc t) = Ok (show (xsd_document O E G (with_links (so t)))).
    Proof.
      intros H. unfold relinked, xsd_document. cbn [xd_root xd_prefixes]. rewrite rewrite_schema; [reflexivity|]. apply object_located. apply near. now right.
    Qed.
    Lemma wsdl_ok : exists prefixes, (d <- generate_wsdl (10 + k) O (lib_env lim) E G (service_object graph parts F) ;; relinked show d) =
      Ok (show (mkDoc prefixes (describe_service O E G (service_with_links (service_object graph parts F))))).
    Proof.
      destruct (C54_document_partial O lim E G k _ sdesc) as (prefixes & Hd). exists prefixes. rewrite Hd. cbn [bind]. unfold relinked. cbn [xd_root xd_prefixes].
      rewrite rewrite_service; [reflexivity|]. intros x Hx. cbn [service_object ws_schemas] in Hx. rewrite one in Hx. destruct Hx as [<- | []].
      apply object_located. apply near. now left.
    Qed.
    Lemma table_xsds : exists r, walk_schema_tree (10 + k) graph (fun i => d <- xsd_of (10 + k) O (lib_env lim) E G graph parts i ;; relinked show d) [root] = Ok r /\
      (forall t, below graph [root] t -> loc_get (s_location (graph t)) (fst r) = Some (show (xsd_document O E G (with_links (so t))))) /\
      (forall l a, loc_get l (fst r) = Some a -> exists t, below graph [root] t /\ s_location (graph t) = l /\ a = show (xsd_document O E G (with_links (so t)))).
    Proof.
      apply walk_table with (L := locs); auto; [|exact (proj2 wl)]. intros t H. rewrite xsd_of_ok by now right. cbn [bind]. now apply relinked_ok.
    Qed.
    Lemma table_lookup : exists r, walk_schema_tree (10 + k) graph (fun i => Ok i) [root] = Ok r /\
      knows graph (fun t => doc t) [root] (resolve (10 + k) O (lib_env lim) E G graph parts (fst r)).
    Proof.
      destruct (walk_table graph (fun i => Ok i) (fun i => i) [root] locs (10 + k)) as (r & Hr & H1 & H2); auto; [exact (proj2 wl)|].
      exists r. split; [exact Hr|]. intros url. split.
      - intros t Ht Hl. unfold resolve. rewrite <- Hl, (H1 t Ht). apply xsd_of_ok. now right.
      - intros H. unfold resolve. destruct (loc_get (Some url) (fst r)) as [i|] eqn:Q; [|reflexivity]. destruct (H2 _ _ Q) as (t & Ht & Hl & _). now apply H in Ht.
    Qed.
    Lemma makes valid mw hooks strict :
      (forall r, knows graph (fun t => doc t) [root] r -> compile r (doc root) = Ok valid) ->
      (forall name, In name (map fst (or_empty hooks)) -> exists d, In d documented_hooks /\ String.prefix d name = true) ->
      exists D prefixes, new_dispatcher (10 + k) O (lib_env lim) E G graph parts show compile F mw hooks None None strict = Ok (D, valid) /\
        d_service D = fs_service F /\ d_middlewares D = or_empty mw /\ d_hooks D = or_empty hooks /\ d_strict D = strict /\
        d_wsdl D = show (mkDoc prefixes (describe_service O E G (service_with_links (service_object graph parts F)))) /\
        (forall t, below graph [root] t -> loc_get (s_location (graph t)) (d_xsds D) = Some (show (xsd_document O E G (with_links (so t))))) /\
        (forall l a, loc_get l (d_xsds D) = Some a -> exists t, below graph [root] t /\ s_location (graph t) = l).
    Proof.
      intros Hc Hh. destruct table_lookup as (r & Hr & Kn). destruct table_xsds as (x & Hx & T1 & T2). destruct wsdl_ok as (prefixes & Hw).
      eexists. exists prefixes. split.
      - unfold new_dispatcher, schema_validator. rewrite one, Hr. cbn [bind mapM]. rewrite xsd_of_ok by now left. cbn [bind parse_joined]. rewrite (Hc _ Kn). cbn [bind].
        fold (@or_empty (string * hook W) hooks). rewrite (proj2 (check_hooks_spec _) Hh). cbn [bind]. rewrite Hw. cbn [bind]. rewrite Hx. cbn [bind]. reflexivity.
      - cbn [d_service d_middlewares d_hooks d_strict d_wsdl d_xsds]. repeat (split; [reflexivity|]). split; [exact T1|].
        intros l a H. destruct (T2 l a H) as (t & Ht & Hl & _). eauto.
    Qed.
  End W.
End Make.

(** A request that follows a link. *)
Lemma follow W P (D : dispatcher W) w rq l : no_hooks D -> request_method rq "GET" -> plain_location l -> query_of rq = query l ->
  exists rs, dispatch P D w rq = (w, [], Ok rs) /\
    match loc_get (Some l) (d_xsds D) with
    | Some x => rs_content rs = Some x /\ rs_headers rs = [("Content-Type", "text/xml")]
    | None => rs_content rs = Some "not_found" /\ rs_headers rs = [("Content-Type", "text/plain")]
    end.
Proof.
  intros H R Pl Q. destruct (route_xsd W P D w rq l H R) as (rs & Hd & Hc).
  - intros (v & I). rewrite Q, (parse_query l Pl) in I. destruct I as [I | []]. discriminate I.
  - intros (v & I). rewrite Q, (parse_query l Pl) in I. destruct I as [I | []]. discriminate I.
  - exists [], []. split; [|intros v' []]. rewrite Q. now apply parse_query.
  - exists rs. split; [exact Hd|]. destruct Pl as (Hl & _). destruct (String.eqb_spec l ""); [contradiction|]. exact Hc.
Qed.

Lemma serves_all O lim E G graph parts show compile W (F : full_service W) root locs k valid mw hooks strict :
  sv_schemas (fs_service F) = [root] -> service_describable O E G (service_object graph parts F) ->
  (forall t, below graph [root] t -> schema_describable O E G (schema_object graph parts t)) ->
  well_located graph [root] -> (forall t, below graph [root] t -> In (s_location (graph t)) locs) -> length locs < 10 + k ->
  (forall r, knows graph (fun t => xsd_document O E G (schema_object graph parts t)) [root] r ->
     compile r (xsd_document O E G (schema_object graph parts root)) = Ok valid) ->
  (forall name, In name (map fst (or_empty hooks)) -> exists d, In d documented_hooks /\ String.prefix d name = true) ->
  exists D prefixes, new_dispatcher (10 + k) O (lib_env lim) E G graph parts show compile F mw hooks None None strict = Ok (D, valid) /\
    d_service D = fs_service F /\ d_middlewares D = or_empty mw /\ d_hooks D = or_empty hooks /\ d_strict D = strict /\
    d_wsdl D = show (mkDoc prefixes (describe_service O E G (service_with_links (service_object graph parts F)))) /\
    (or_empty hooks = [] -> forall P w rq l, request_method rq "GET" -> plain_location l -> query_of rq = query l ->
     exists rs, dispatch P D w rq = (w, [], Ok rs) /\
       (forall t, below graph [root] t -> s_location (graph t) = Some l ->
          rs_content rs = Some (show (xsd_document O E G (with_links (schema_object graph parts t)))) /\ rs_headers rs = [("Content-Type", "text/xml")]) /\
       ((forall t, below graph [root] t -> s_location (graph t) <> Some l) ->
          rs_content rs = Some "not_found" /\ rs_headers rs = [("Content-Type", "text/plain")])).
Proof.
  intros H1 H2 H3 H4 H5 H6 H7 H8. destruct (makes O lim E G graph parts show compile F root locs k H1 H2 H3 H4 H5 H6 valid mw hooks strict H7 H8) as (D & prefixes & A1 & A2 & A3 & A4 & A5 & A6 & A7 & A8).
  exists D, prefixes. repeat (split; [assumption|]). intros Hh P w rq l R Pl Q. assert (NH : no_hooks D) by (unfold no_hooks; congruence).
  destruct (follow W P D w rq l NH R Pl Q) as (rs & B1 & B2). exists rs. split; [exact B1|]. split.
  - intros t Ht Hl. rewrite <- Hl, (A7 t Ht) in B2. exact B2.
  - intros Hn. destruct (loc_get (Some l) (d_xsds D)) as [a|] eqn:L; [|exact B2]. destruct (A8 _ _ L) as (t & Ht & Hl). exfalso. exact (Hn t Ht Hl).
Qed.
Lemma links_wsdl O E G graph parts W (F : full_service W) root : sv_schemas (fs_service F) = [root] -> well_located graph [root] ->
  forall l, refers_to (describe_service O E G (service_with_links (service_object graph parts F))) l <->
    exists t l0, imports_of graph root t /\ s_location (graph t) = Some l0 /\ l = link l0.
Proof.
  intros one wl l. rewrite service_refers. cbn [service_with_links service_object ws_schemas]. rewrite one. cbn [map].
  rewrite <- (object_refers O E G graph parts root l); [|intros t I; apply (proj1 wl); eapply below_first; eauto; now left]. split.
  - intros (g & [<- | []] & H). exact H.
  - intros H. eexists. split; [now left|exact H].
Qed.
Lemma links_xsd O E G graph parts root s : well_located graph [root] -> below graph [root] s ->
  forall l, refers_to (xd_root (xsd_document O E G (with_links (schema_object graph parts s)))) l <->
    exists t l0, imports_of graph s t /\ s_location (graph t) = Some l0 /\ l = link l0.
Proof. intros wl Hs l. cbn [xsd_document xd_root]. apply object_refers. intros t I. apply (proj1 wl). eapply below_step; eauto. Qed.

(** ** What cannot be served *)
Lemma mapM_len {A B} (f : A -> res B) l m : mapM f l = Ok m -> length m = length l.
Proof.
  revert m. induction l as [|a l IH]; intros m H; [injection H as <-; reflexivity|]. cbn [mapM] in H. apply bind_ok in H as (b & _ & H). apply bind_ok in H as (bs & Hb & H). injection H as <-. cbn. f_equal. auto.
Qed.
Lemma one_schema n O L E G graph parts show compile W (F : full_service W) mw hooks wsdl xsds strict r :
  length (sv_schemas (fs_service F)) <> 1 -> new_dispatcher n O L E G graph parts show compile F mw hooks wsdl xsds strict <> Ok r.
Proof.
  intros N H. unfold new_dispatcher in H. apply bind_ok in H as (v & H & _). unfold schema_validator in H. apply bind_ok in H as (lk & _ & H). apply bind_ok in H as (ds & Hd & H).
  apply bind_ok in H as (d & H & _). apply mapM_len in Hd. destruct ds as [|d1 [|d2 ds]]; try discriminate H. cbn in Hd. congruence.
Qed.
Lemma nameless O lim E G graph parts show compile W (F : full_service W) k mw hooks xsds strict r s t :
  service_describable O E G (service_object graph parts F) -> In s (sv_schemas (fs_service F)) -> In t (s_imports (graph s)) ->
  s_location (graph t) = None \/ s_location (graph t) = Some "" ->
  new_dispatcher (10 + k) O (lib_env lim) E G graph parts show compile F mw hooks None xsds strict <> Ok r.
Proof.
  intros D Hs Ht Hl H. unfold new_dispatcher in H. apply bind_ok in H as (v & _ & H). cbv zeta in H. apply bind_ok in H as (u & _ & H). apply bind_ok in H as (w & H & _).
  apply bind_ok in H as (d & Hd & H). destruct (C54_document_partial O lim E G k _ D) as (prefixes & Hg). rewrite Hg in Hd. injection Hd as <-.
  unfold relinked in H. apply bind_ok in H as (x & H & _). cbn [xd_root] in H.
  destruct (service_needs _ _ _ _ _ H (schema_object graph parts s)) as (y & Hy); [cbn [service_object ws_schemas]; now apply in_map|].
  destruct (located_needed _ _ _ _ _ Hy (gs_tns (parts t), s_location (graph t))) as (l & E1 & E2).
  { cbn [schema_object gs_imports]. apply in_map_iff. exists t. auto. }
  cbn [snd] in E1. destruct Hl as [Hl|Hl]; rewrite Hl in E1; [discriminate|]. injection E1 as <-. contradiction.
Qed.

