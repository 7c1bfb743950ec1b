(** Generated modules that talk to the service they were generated from (C82). *)
From Coq Require Import String Ascii List ZArith NArith Bool Lia Permutation.
From Verif Require Import PyBase PfBase PyRe Xml PyVal XsdSimple XsdComplex XsdMeta XsdSchema PyHttp Soap Dispatch Client LibClasses Py2Xsd SpecXsd Py2Wsdl GenOrder SpecOrder Xsd2Py PyLoad XsdPrefixes
  PyUrl Wsdl2Py PyService PyInterop PyModule
  SpecParse SpecRound SpecNames SpecGenCode SpecGenWsdl SpecSoap SpecDispatch SpecHttp SpecClient SpecUrl SpecService SpecRegen SpecLoadable SpecReclass SpecExchange SpecModule SpecPeer
  PfSoap PfClient3 PfParse3 PfReclass PfReclass2 PfReclass3 PfAgree PfExchange PfRegen3 PfModule.
Import Dispatch ListNotations.
Local Notation plan_of := PfReclass.plan_of.
Open Scope nat_scope.
Open Scope string_scope.
Open Scope list_scope.

Lemma alike_more (P Q : string -> Prop) f f' : (forall c, P c -> Q c) -> alike P f f' -> alike Q f f'.
Proof. intros H []. constructor; auto. Qed.
Lemma alike_same (Q : string -> Prop) f : f_kind f = KElement \/ f_kind f = KClassNamed -> f_default f = VNone -> (forall c, f_type f = TComplex c -> Q c) -> alike Q f f.
Proof. intros K D T. constructor; auto. tauto. Qed.

Section Envs.
  Variables (O : oracle) (U U' : string -> option classdef) (lim : nat) (own : string -> Prop).
  Notation E := (soap_env U lim).
  Notation E' := (soap_env U' lim).
  Definition soap_class (c : string) : Prop := In c (map fst soap_classes).
  Definition both (c : string) : Prop := soap_class c \/ own c.
  Hypothesis New : forall c, own c -> assoc c soap_classes = None.
  Hypothesis Ag : forall c, own c -> exists d d', U c = Some d /\ U' c = Some d' /\ cd_kind d' = cd_kind d /\
    In c (cd_mro d) /\ In c (cd_mro d') /\ cd_ind d' = cd_ind d /\ cd_schema d' = cd_schema d /\ Forall2 (alike own) (cd_fields d) (cd_fields d').
  Hypothesis Inst : forall c, own c -> exists fs, new_instance O E c = Ok fs.
  Hypothesis Nd : forall c d, own c -> U c = Some d -> NoDup (map f_name (cd_fields d)).

  Lemma env_own V c : own c -> e_cls (soap_env V lim) c = V c.
  Proof. intros I. cbn [soap_env e_cls]. now rewrite (New c I). Qed.
  Lemma soap_defined V c : soap_class c -> exists d, assoc c soap_classes = Some d /\ e_cls (soap_env V lim) c = Some d /\ In c (cd_mro d) /\
    NoDup (map f_name (cd_fields d)) /\ Forall2 (alike both) (cd_fields d) (cd_fields d).
  Proof.
    intros I. cbn [soap_env e_cls]. unfold soap_class, soap_classes in I. cbn [map fst In] in I.
    assert (F : forall d l, cd_fields d = l -> Forall (fun f => (f_kind f = KElement \/ f_kind f = KClassNamed) /\ f_default f = VNone /\ forall c, f_type f = TComplex c -> soap_class c) l ->
                Forall2 (alike both) (cd_fields d) (cd_fields d)).
    { intros d l -> X. induction X as [|f l (K & D & T) X IH]; constructor; auto. apply alike_same; auto. intros c0 Hc. left. auto. }
    repeat (destruct I as [<- | I]; [eexists; split; [reflexivity|]; split; [reflexivity|]; split; [now left|];
      split; [repeat constructor; cbn; intuition discriminate|];
      eapply F; [reflexivity|repeat first [apply Forall_nil | apply Forall_cons; [split; [auto|]; split; [reflexivity|]; intros ? [= <-]; vm_compute; tauto|] |
        apply Forall_cons; [split; [auto|]; split; [reflexivity|]; intros ? Z; discriminate Z|]]]|]). destruct I.
  Qed.
  Lemma both_agree c : both c -> exists d d', e_cls E c = Some d /\ e_cls E' c = Some d' /\ cd_kind d' = cd_kind d /\
    In c (cd_mro d) /\ In c (cd_mro d') /\ cd_ind d' = cd_ind d /\ cd_schema d' = cd_schema d /\ Forall2 (alike both) (cd_fields d) (cd_fields d').
  Proof.
    intros [I | I].
    - destruct (soap_defined U c I) as (d & A & H & M & _ & F). destruct (soap_defined U' c I) as (d' & A' & H' & _). assert (d' = d) as -> by congruence.
      exists d, d. split; [exact H|]. split; [exact H'|]. auto 8.
    - destruct (Ag c I) as (d & d' & H & H' & K & M & M' & Ei & Es & F). exists d, d'. rewrite !env_own by exact I. split; [exact H|]. split; [exact H'|].
      repeat (split; [assumption|]). eapply Forall2_weaken; [|exact F]. intros f f'. apply alike_more. intros; now right.
  Qed.
  Lemma soap_instance V c : soap_class c -> exists fs, new_instance O (soap_env V lim) c = Ok fs.
  Proof.
    intros I. unfold soap_class, soap_classes in I. cbn [map fst In] in I.
    repeat (destruct I as [<- | I]; [eexists; vm_compute; reflexivity|]). destruct I.
  Qed.
  Lemma both_instance c : both c -> exists fs, new_instance O E' c = Ok fs.
  Proof.
    intros [I | I]; [exact (soap_instance U' c I)|]. destruct (Inst c I) as (fs & H). exists fs.
    transitivity (new_instance O E c); [|exact H]. exact (new_inst_same O E E' both both_agree (10 + lim) c (or_intror I)).
  Qed.
  Lemma both_names c d : both c -> e_cls E c = Some d -> NoDup (map f_name (cd_fields d)).
  Proof.
    intros [I | I] H; [|rewrite env_own in H by exact I; exact (Nd c d I H)]. destruct (soap_defined U c I) as (d1 & _ & H1 & _ & N & _). congruence.
  Qed.
  Lemma both_read c : both c -> forall j y, parse_obj j O E' c y = parse_obj j O E c y.
  Proof. intros B j y. exact (parse_obj_same O E E' both both_agree both_instance (le_n _) both_names j c y B). Qed.
  Variable cs : list string.
  Hypothesis Cs : forall c, In c cs -> own c.
  Hypothesis Pl : forall c d, own c -> U c = Some d -> cd_kind d = CKPlain /\ Forall (fun f => f_kind f <> KClassNamed) (cd_fields d).
  Lemma own_agree c : own c -> exists d d', e_cls E c = Some d /\ e_cls E' c = Some d' /\ cd_kind d' = cd_kind d /\
    In c (cd_mro d) /\ In c (cd_mro d') /\ cd_ind d' = cd_ind d /\ cd_schema d' = cd_schema d /\ Forall2 (alike own) (cd_fields d) (cd_fields d').
  Proof. intros I. rewrite !env_own by exact I. exact (Ag c I). Qed.
  Lemma own_xml v : made_of cs v -> forall j tag ns efd, xml_of j O E' v tag ns efd = xml_of j O E v tag ns efd.
  Proof.
    intros Mv j tag ns efd. unfold xml_of. destruct (mk_element _) as [y|]; [|reflexivity]. cbn [bind].
    destruct Mv as [c xe fs I F|b l F|v No Nl]; [|reflexivity|destruct v; try reflexivity; exfalso; eapply No; reflexivity].
    cbn [obj_parts bind fst].
    refine (render_obj_same O E E' own own_agree cs Cs _ j c y _ ns efd (Cs c I) (mo_obj _ _ _ _ I F)).
    intros c0 d I0 H. rewrite env_own in H by exact I0. now apply Pl with c0.
  Qed.
  Hypothesis Base : forall c d, own c -> U c = Some d -> In "ComplexType" (cd_mro d).
  Hypothesis Base' : forall c d, own c -> U' c = Some d -> In "ComplexType" (cd_mro d).
  Hypothesis Sch : forall c d, own c -> U c = Some d -> cd_schema d <> None.
  Lemma response_same n v tag c xe fs : made_of cs (VObj c xe fs) ->
    envelope_response (S (S n)) O E' v tag (VObj c xe fs) VNone = envelope_response (S (S n)) O E v tag (VObj c xe fs) VNone.
  Proof.
    intros M. assert (I : In c cs). { inversion M as [? ? ? I _| |? No]; subst; [exact I|]. exfalso. eapply No. reflexivity. }
    destruct (Ag c (Cs c I)) as (d & d' & H & H' & _ & _ & _ & _ & Es & _). destruct (cd_schema d) as [si|] eqn:Sd; [|exfalso; now apply (Sch c d (Cs c I) H)].
    rewrite (response_eq O U' lim n v tag c xe fs d' si VNone); [|now rewrite env_own by auto|congruence|eauto].
    rewrite (response_eq O U lim n v tag c xe fs d si VNone); [|now rewrite env_own by auto|congruence|eauto].
    now rewrite (own_xml _ M).
  Qed.
End Envs.

(** ** The module and the original classes *)
Lemma after_written v : after_colon (written_group v) = after_colon v.
Proof.
  unfold written_group. destruct (String.prefix "sns:" v) eqn:Pv; [reflexivity|]. unfold after_colon, str_split.
  replace (split_l ":"%char (to_l ("sns:" ++ v)%string)) with (to_l "sns" :: split_l ":"%char (to_l v)) by reflexivity.
  cbn [map last]. destruct (split_l ":"%char (to_l v)) as [|p l] eqn:Es; [|reflexivity]. exfalso.
  destruct (to_l v) as [|a t]; [discriminate Es|]. cbn [split_l] in Es. destruct (Ascii.eqb a ":"%char); [discriminate Es|]. destruct (split_l ":"%char t); discriminate Es.
Qed.
Section Peer.
  Variables (sort : sorter) (n : nat) (rt : runtime) (limit : nat) (U : string -> option classdef) (lim : nat) (G : decls) (s : gschema) (rank : string -> nat) (o : pyval) (O : oracle).
  Notation E := (soap_env U lim).
  Hypothesis LS : list_sort sort.
  Hypothesis Hn : 0 < n.
  Hypothesis D : schema_describable O E G s.
  Hypothesis R : schema_reproducible E G limit rank s.
  Hypothesis Fa : schema_faithful rt E s.
  Hypothesis So : states_schema o (plan_of E s).
  Variable m : module.
  Hypothesis Rg : import_schema sort n rt limit O nss_x o = Ok m.
  Hypothesis Lm : limit <= 10 + lim.
  Hypothesis Mc : message_classes U s.
  Notation U' := (classes_of_module limit m).
  Notation E' := (soap_env U' lim).
  Notation own := (PfExchange.own s).

  Lemma p_new c : own c -> assoc c soap_classes = None.
  Proof. intros I. now apply Mc. Qed.
  Lemma p_cls c : own c -> e_cls E c = U c.
  Proof. intros I. cbn [soap_env e_cls]. now rewrite (p_new c I). Qed.
  Lemma p_plain c : own c -> plain_name c = c.
  Proof.
    intros I. unfold plain_name. destruct (String.eqb_spec c "xsd.ComplexType") as [->|]; [|reflexivity].
    destruct (names_fine E G limit rank s R _ (in_complex s _ I)) as [U0 _]. apply PfService2.usable_ident in U0. discriminate U0.
  Qed.
  Lemma p_agree c : own c -> exists d d', U c = Some d /\ U' c = Some d' /\ cd_kind d' = cd_kind d /\
    In c (cd_mro d) /\ In c (cd_mro d') /\ cd_ind d' = cd_ind d /\ cd_schema d' = cd_schema d /\ Forall2 (alike own) (cd_fields d) (cd_fields d').
  Proof.
    intros I. destruct (classes_agree sort n rt limit O E G s rank o LS Hn D R Fa So m Rg c I) as (d & d' & H & H' & K & M & M' & Rest).
    rewrite (p_cls c I) in H. exists d, (as_user d'). split; [exact H|]. split; [unfold classes_of_module; now rewrite H'|]. split; [exact K|]. split; [exact M|].
    split; [|exact Rest]. cbn [as_user cd_mro]. rewrite <- (p_plain c I). now apply in_map.
  Qed.
  Lemma p_instances c : own c -> exists fs, new_instance O E c = Ok fs.
  Proof.
    intros I. destruct (instances sort n rt limit O E G s rank o LS Hn D R So m Rg c I) as (fs & H). exists fs. rewrite <- H. symmetry.
    exact (new_instance_same O E _ own (classes_agree sort n rt limit O E G s rank o LS Hn D R Fa So m Rg) (instances sort n rt limit O E G s rank o LS Hn D R So m Rg) Lm c I).
  Qed.
  Lemma p_names c d : own c -> U c = Some d -> NoDup (map f_name (cd_fields d)).
  Proof. intros I H. rewrite <- (p_cls c I) in H. exact (names_differ rt limit E G s rank R Fa c d I H). Qed.
  Lemma p_read c : soap_class c \/ own c -> forall j y, parse_obj j O E' c y = parse_obj j O E c y.
  Proof. exact (both_read O U U' lim own p_new p_agree p_instances p_names c). Qed.
  Lemma p_schema c d : own c -> U c = Some d -> cd_schema d <> None.
  Proof.
    intros I H. assert (Fa' := Fa). unfold schema_faithful in Fa'. rewrite Forall_forall in Fa'. destruct (Fa' c I) as (d1 & H1 & _ & _ & Sd & _).
    rewrite (p_cls c I), H in H1. injection H1 as <-. rewrite Sd. discriminate.
  Qed.
  Lemma p_base' c d : own c -> U' c = Some d -> In "ComplexType" (cd_mro d).
  Proof.
    intros I H. destruct (classes_agree sort n rt limit O E G s rank o LS Hn D R Fa So m Rg c I) as (d0 & d1 & H0 & H1 & _).
    destruct (o_same sort n rt limit O E G s rank LS Hn D R o So m Rg c d0 I H0) as (d2 & H2 & (M2 & _) & _).
    unfold module_class in H2. unfold classes_of_module in H. cbn [e_cls module_env] in *. rewrite H1 in H, H2. injection H2 as <-. injection H as <-.
    cbn [as_user cd_mro]. rewrite M2. right. now left.
  Qed.
  Lemma p_response j v tag x : instance_of_schema s x ->
    envelope_response (S (S j)) O E' v tag x VNone = envelope_response (S (S j)) O E v tag x VNone.
  Proof.
    intros (M & c & xe & fs & ->).
    refine (response_same O U U' lim own p_new p_agree (gs_complex s) (fun c H => H) _ _ p_base' p_schema j v tag c xe fs M).
    - intros c0 d I H. rewrite <- (p_cls c0 I) in H. exact (classes_plain sort n rt limit O E G s rank o LS Hn D R Fa So m Rg c0 d I H).
    - intros c0 d I H. destruct (Mc c0 I) as [_ B]. auto.
  Qed.
  Lemma p_error j v code msg actor : error_response (4 + j) O E' v code msg VNone actor = error_response (4 + j) O E v code msg VNone actor.
  Proof. cbn [Nat.add]. rewrite (error_eq O U' lim), (error_eq O U lim). reflexivity. Qed.

  (** *** Elements *)
  Variable P : platform.
  Hypothesis PE : pf_E P = E.
  Hypothesis PO : pf_O P = O.
  Hypothesis Pg : 0 < pf_gn P.
  Notation P' := (with_module P limit lim m).
  Variables (W : Type) (S : service W).
  Hypothesis Hs : has_schema P S s.
  Lemma original_element name : forall el, In (name, el) (gs_elements s) -> exists e, own_element P (sv_schemas S) name = Some e /\
    find_element_by_name (pf_gn P) (pf_G P) (sv_schemas S) name = Ok (Some e) /\ se_type e = ge_type el /\ se_subst e = ge_subst el.
  Proof.
    intros el I. destruct Hs as (i & Ei & _ & _ & F). rewrite Ei. cbn [own_element find_element_by_name first_some].
    destruct (pf_gn P) as [|gn]; [inversion Pg|]. cbn [get_element].
    assert (X : exists e, assoc name (s_elements (pf_G P i)) = Some e /\ se_type e = ge_type el /\ se_subst e = ge_subst el).
    { assert (R' := R). destruct R' as (_ & _ & _ & _ & Nd & _). clear - F I Nd. induction F as [|[k x] [k' y] l l' (Ek & Et & Es) F IH]; [destruct I|]. cbn [fst snd map] in *. subst k'. cbn [assoc].
      inversion_clear Nd as [|? ? Nk Nl]. destruct I as [[= -> ->] | I].
      - rewrite String.eqb_refl. eauto.
      - destruct (String.eqb_spec name k) as [->|_]; [|now apply IH]. exfalso. apply Nk. apply in_map_iff. now exists (k, el). }
    destruct X as (e & -> & Et & Es). exists e. auto.
  Qed.
  Lemma original_absent name : ~ In name (map fst (gs_elements s)) -> own_element P (sv_schemas S) name = None.
  Proof.
    intros N. destruct Hs as (i & Ei & _ & _ & F). rewrite Ei. cbn [own_element].
    assert (X : assoc name (s_elements (pf_G P i)) = None); [|now rewrite X].
    clear - F N. induction F as [|[k x] [k' y] l l' (Ek & _) F IH]; [reflexivity|]. cbn [fst snd map In] in *. subst k'. cbn [assoc].
    destruct (String.eqb_spec name k) as [->|_]; [exfalso; auto|]. apply IH. tauto.
  Qed.
  Lemma graph_assoc {A B} (f : A -> B) name (l : list (string * A)) : assoc name (map (fun e => (fst e, f (snd e))) l) = option_map f (assoc name l).
  Proof. induction l as [|[k v] l IH]; [reflexivity|]. cbn [map fst snd assoc]. destruct (String.eqb name k); [reflexivity|exact IH]. Qed.
  Lemma module_element name el : In (name, el) (gs_elements s) -> exists t, own_element P' [0] name = Some (mkSel t (option_map written_group (ge_subst el))) /\
    find_element_by_name (pf_gn P') (pf_G P') [0] name = Ok (Some (mkSel t (option_map written_group (ge_subst el)))) /\
    (class_element rt s name -> t = ge_type el).
  Proof.
    intros I. destruct (o_elements sort n rt limit O E G s rank LS Hn D R o So m Rg name el I) as (t & A & T). exists t.
    cbn [own_element find_element_by_name first_some with_module pf_G pf_gn]. destruct (pf_gn P) as [|gn]; [inversion Pg|]. cbn [get_element module_graph s_elements].
    rewrite (graph_assoc (fun e => mkSel (fst e) (snd e))), A. cbn [option_map fst snd bind]. split; [reflexivity|]. split; [reflexivity|].
    intros (el' & I' & C & Tk). assert (el' = el) as ->.
    { assert (R' := R). destruct R' as (_ & _ & _ & _ & Nd & _). clear - I I' Nd. induction (gs_elements s) as [|[k v] l IH]; [destruct I|]. cbn [map fst] in Nd. inversion_clear Nd as [|? ? Nk Nl].
      destruct I as [[= -> ->] | I], I' as [[= Ea] | I']; try congruence; auto; exfalso; apply Nk; [|subst]; (apply in_map_iff; eexists; split; [|eassumption]; reflexivity). }
    rewrite C in T. exact (types_back sort n rt limit O E G s rank o LS R So m Rg _ _ T Tk).
  Qed.
  Lemma module_absent name : ~ In name (map fst (gs_elements s)) -> own_element P' [0] name = None.
  Proof.
    intros N. rewrite <- (o_names sort n rt limit O E G s rank LS R o So m Rg) in N. cbn [own_element with_module pf_G module_graph s_elements].
    rewrite (graph_assoc (fun e => mkSel (fst e) (snd e))). destruct (assoc name (md_elements m)) as [x|] eqn:Ea; [|reflexivity].
    exfalso. apply N. apply assoc_in in Ea. apply in_map_iff. now exists (name, x).
  Qed.
  (** Elements whose type is a class are the same. *)
  Lemma same_lookup name : class_element rt s name -> exists t e e',
    find_element_by_name (pf_gn P) (pf_G P) (sv_schemas S) name = Ok (Some e) /\ se_type e = t /\
    find_element_by_name (pf_gn P') (pf_G P') [0] name = Ok (Some e') /\ se_type e' = t /\ forall c, t = TComplex c -> own c.
  Proof.
    intros C. assert (C' := C). destruct C' as (el & I & Ec & Tk). destruct (original_element name el I) as (e & _ & H & T & _). destruct (module_element name el I) as (t & _ & H' & T').
    exists (ge_type el), e, (mkSel t (option_map written_group (ge_subst el))). split; [exact H|]. split; [exact T|]. split; [exact H'|]. split; [cbn; auto|].
    intros c Et. assert (R' := R). destruct R' as (_ & _ & _ & _ & _ & _ & _ & _ & _ & Ft). rewrite Forall_forall in Ft. destruct (Ft _ I) as (_ & _ & X). cbn [snd] in X. rewrite Ec, Et in X. exact X.
  Qed.

  (** *** Calls *)
  Variable j : nat.
  Hypothesis Pn : pf_n P = 4 + j.
  Definition moved (S : service W) : service W := mkService (sv_version S) [0] (sv_methods S) (sv_ih S) (sv_fns S).
  Hypothesis Hh : headerless S.
  Hypothesis Cm : Forall (fun x => exists i o, m_in x = IOName i /\ m_out x = IOName o /\ class_element rt s i /\ class_element rt s o) (sv_methods S).
  Lemma envelope_soap v : soap_class (envelope_cls v).
  Proof. destruct v; vm_compute; tauto. Qed.
  Lemma p_handle x content : In x (sv_methods S) -> handle_response P' (moved S) x content = handle_response P S x content.
  Proof.
    intros I. rewrite Forall_forall in Cm. destruct (Cm x I) as (i & o' & _ & Eo & _ & Co). assert (Hh' := Hh). unfold headerless in Hh'. rewrite Forall_forall in Hh'. destruct (Hh' x I) as [_ Ho].
    unfold handle_response. cbn [with_module pf_parse pf_n pf_O pf_E moved sv_version]. destruct (pf_parse P content) as [doc|]; [|reflexivity]. cbn [bind]. rewrite PO, PE.
    rewrite (p_read _ (or_introl (envelope_soap _))). destruct (parse_obj _ _ _ _ doc) as [e|]; [|reflexivity]. cbn [bind]. rewrite Ho.
    destruct (py_get e "Header") as [h|]; [|reflexivity]. cbn [bind]. destruct (match h with VNone => Ok VNone | _ => Ok VNone end) as [h'|]; [|reflexivity]. cbn [bind].
    destruct (py_get e "Body") as [b|]; [|reflexivity]. cbn [bind]. destruct (py_get b "Fault") as [f|]; [|reflexivity]. cbn [bind]. destruct f; try reflexivity.
    destruct (same_lookup o' Co) as (t & e1 & e1' & F & T & F' & T' & Cl). unfold output_type. cbn [moved sv_schemas]. rewrite Eo.
    rewrite F, F'. cbn [bind]. rewrite T, T'. destruct t as [u|c]; [reflexivity|]. unfold parse_output, body_parse_as. cbn [with_module pf_n pf_O pf_E]. rewrite PO, PE.
    destruct (body_content b) as [y|]; [|reflexivity]. cbn [bind]. now rewrite (p_read _ (or_intror (Cl c eq_refl))).
  Qed.
  Lemma p_stub_call T (post : transport T) w op parameter : instance_of_schema s parameter ->
    stub_call P' (moved S) post w op parameter VNone = stub_call P S post w op parameter VNone.
  Proof.
    intros Ip. unfold stub_call. cbn [moved sv_methods]. destruct (get_method (sv_methods S) op) as [x|] eqn:Gm; [|reflexivity].
    assert (I : In x (sv_methods S)). { unfold get_method in Gm. destruct (find _ _) eqn:Fd; [|discriminate Gm]. injection Gm as <-. now apply find_some in Fd. }
    assert (Rq : stub_request P' (moved S) x parameter VNone = stub_request P S x parameter VNone).
    { unfold stub_request. cbn [moved sv_version with_module pf_n pf_O pf_E pf_ser]. destruct (request_tag x parameter) as [tag|]; [|reflexivity]. cbn [bind].
      rewrite Pn, PO, PE. cbn [Nat.add]. now rewrite (p_response _ _ _ _ Ip). }
    rewrite Rq. destruct (stub_request P S x parameter VNone) as [[headers data]|]; [|reflexivity]. destruct (post w headers data) as [w' [content|]]; [|reflexivity].
    f_equal. now apply p_handle.
  Qed.

  (** *** Answers *)
  Variable D0 : dispatcher W.
  Hypothesis DS : d_service D0 = S.
  Notation D1 := (with_service D0 (moved S)).
  Lemma p_find rq body : find_handler P' D1 rq body = find_handler P D0 rq body.
  Proof.
    unfold find_handler. rewrite DS. cbn [with_service d_service moved sv_version sv_methods sv_schemas]. destruct (root_tag body) as [tag|]; [|reflexivity]. cbn [bind].
    destruct (truthy_str _); [reflexivity|]. destruct (find (input_is tag) (sv_methods S)); [reflexivity|].
    destruct (in_dec string_dec tag (map fst (gs_elements s))) as [I|N]; [|now rewrite (module_absent tag N), (original_absent tag N)].
    apply in_map_iff in I as ([k el] & Ek & I). cbn [fst] in Ek. subst k. destruct (original_element tag el I) as (e & H & _ & _ & Hg). destruct (module_element tag el I) as (t & H' & _).
    rewrite H, H'. cbn [se_subst]. rewrite Hg. destruct (sv_methods S) as [|x l]; [reflexivity|]. destruct (ge_subst el) as [v|]; [|reflexivity]. cbn [option_map].
    now rewrite after_written.
  Qed.
  Lemma p_found rq body x : find_handler P D0 rq body = Ok x -> In x (sv_methods S).
  Proof.
    unfold find_handler. rewrite DS. destruct (root_tag body) as [tag|]; [|discriminate]. cbn [bind].
    destruct (truthy_str _).
    - destruct (find _ _) eqn:F; [|discriminate]. intros [= <-]. now apply find_some in F.
    - destruct (find (input_is tag) (sv_methods S)) eqn:F; [intros [= <-]; now apply find_some in F|].
      destruct (own_element _ _ _) as [e|]; [|discriminate]. destruct (sv_methods S) as [|y l] eqn:Es; [discriminate|]. destruct (se_subst e); [|discriminate].
      destruct (find (input_is (after_colon s0)) (y :: l)) eqn:F'; [|discriminate]. intros [= <-]. now apply find_some in F'.
  Qed.
  Hypothesis Ih : sv_ih S = None.
  Lemma p_prepare rq : prepare_request P' D1 rq = prepare_request P D0 rq.
  Proof.
    unfold prepare_request.
    assert (Pc : parse_soap_content P' D1 (rq_content rq) = parse_soap_content P D0 (rq_content rq)).
    { unfold parse_soap_content. rewrite DS. cbn [with_service d_service moved sv_version with_module pf_parse pf_n pf_O pf_E]. destruct (pf_parse P (rq_content rq)) as [doc|]; [|reflexivity].
      rewrite PO, PE. now rewrite (p_read _ (or_introl (envelope_soap _))). }
    rewrite Pc, DS. cbn [with_service d_service moved sv_version].
    match goal with |- match ?A with _ => _ end = match ?B with _ => _ end => change A with B; destruct B as [[h x]|]; [|reflexivity] end.
    rewrite p_find. destruct (find_handler P D0 rq x) as [y|] eqn:Fh; [|reflexivity]. pose proof (p_found _ _ _ Fh) as I.
    assert (Hh' := Hh). unfold headerless in Hh'. rewrite Forall_forall in Hh', Cm. destruct (Hh' y I) as [Hi _]. destruct (Cm y I) as (i & o' & Ei & _ & Ci & _).
    assert (Ph : parse_header_of P' D1 y h = parse_header_of P D0 y h).
    { unfold parse_header_of. rewrite DS. cbn [with_service d_service moved sv_ih]. rewrite Hi, Ih. reflexivity. }
    rewrite Ph. destruct (parse_header_of P D0 y h) as [h'|]; [|reflexivity]. cbn zeta.
    assert (Pi : parse_input P' D1 y x = parse_input P D0 y x).
    { unfold parse_input. rewrite Ei, DS. cbn [with_service d_service moved sv_schemas]. destruct (same_lookup i Ci) as (t & e1 & e1' & F & T & F' & T' & Cl). rewrite F, F'. cbn [bind]. rewrite T, T'.
      cbn [with_module pf_n pf_O pf_E]. rewrite PO, PE. destruct t as [u|c]; [reflexivity|]. cbn [parse_type].
      apply (p_read c (or_intror (Cl c eq_refl))). }
    now rewrite Pi.
  Qed.
  Lemma p_call_method st tr : call_method P' D1 st tr = call_method P D0 st tr.
  Proof. destruct st as [w rq]. unfold call_method. rewrite p_prepare, DS. reflexivity. Qed.
  Lemma p_run next next' : (forall st tr, next' st tr = next st tr) -> forall p tr, run_middleware next' p tr = run_middleware (W := W) next p tr.
  Proof.
    intros H p. induction p as [st r|st k IH]; intros tr; [reflexivity|]. cbn [run_middleware]. rewrite H. destruct (next st tr) as [[st' tr'] r]. apply IH.
  Qed.
  Lemma p_stack l : forall st tr, stack P' D1 l st tr = stack P D0 l st tr.
  Proof. induction l as [|x l IH]; intros st tr; cbn [stack]; [apply p_call_method|]. now apply p_run. Qed.
  Hypothesis Fn : functions_answer s (sv_fns S).
  Hypothesis Mw : middlewares_answer s (d_middlewares D0).
  Lemma call_answers st tr : answer_of_schema s (snd (call_method P D0 st tr)).
  Proof.
    destruct st as [w rq]. unfold call_method. destruct (prepare_request P D0 rq) as [[rq' ev] [u|]]; [|exact I]. destruct (rq_method rq') as [x|]; [|exact I]. destruct (m_fn x) as [f|]; [|exact I].
    rewrite DS. pose proof (Fn f (w, rq') (rq_body rq')) as A. destruct (sv_fns S f (w, rq') (rq_body rq')) as [st' [[rs|p]|]]; cbn [snd res_map as_response answer_of_schema new_response rs_body rs_header] in *; auto.
  Qed.
  Lemma run_answers next : (forall st tr, answer_of_schema s (snd (next st tr))) -> forall p, program_answers s p -> forall tr, answer_of_schema s (snd (run_middleware (W := W) next p tr)).
  Proof.
    intros H p. induction p as [st r|st k IH]; intros A tr; cbn [run_middleware program_answers] in *; [exact A|]. specialize (H st tr). destruct (next st tr) as [[st' tr'] r]. cbn [snd] in H. auto.
  Qed.
  Lemma stack_answers l : middlewares_answer s l -> forall st tr, answer_of_schema s (snd (stack P D0 l st tr)).
  Proof. intros A. induction A as [|x l Hx A IH]; intros st tr; cbn [stack]; [apply call_answers|]. now apply run_answers. Qed.
  Lemma p_build rq r : answer_of_schema s r -> build_response P' D1 rq r = build_response P D0 rq r.
  Proof.
    intros A. unfold build_response. rewrite DS. cbn [with_service d_service moved sv_version].
    assert (B : forall rs, payload_of_schema s (rs_body rs) -> rs_header rs = VNone ->
      match rs_body rs with
      | PErr c msg a => x <- error_response (pf_n P') (pf_O P') (pf_E P') (sv_version S) c msg (rs_header rs) None ;; Ok (set_resp D1 rs 500 (pf_ser P' x))
      | PVal v =>
          x <- (match rq_method rq with Some m => Ok m | None => Err AttributeError end) ;;
          match m_out x with
          | IOName tag => x <- envelope_response (pf_n P') (pf_O P') (pf_E P') (sv_version S) tag v (rs_header rs) ;; Ok (set_resp D1 rs (rs_status rs) (pf_ser P' x))
          | _ => Err AttributeError
          end
      end =
      match rs_body rs with
      | PErr c msg a => x <- error_response (pf_n P) (pf_O P) (pf_E P) (sv_version S) c msg (rs_header rs) None ;; Ok (set_resp D0 rs 500 (pf_ser P x))
      | PVal v =>
          x <- (match rq_method rq with Some m => Ok m | None => Err AttributeError end) ;;
          match m_out x with
          | IOName tag => x <- envelope_response (pf_n P) (pf_O P) (pf_E P) (sv_version S) tag v (rs_header rs) ;; Ok (set_resp D0 rs (rs_status rs) (pf_ser P x))
          | _ => Err AttributeError
          end
      end).
    { intros rs Pb Ph. rewrite Ph. cbn [with_module pf_n pf_O pf_E pf_ser]. unfold set_resp. rewrite DS. cbn [with_service d_service moved sv_version]. rewrite Pn, PO, PE. destruct (rs_body rs) as [v|c msg a].
      - destruct (rq_method rq) as [x|]; cbn [bind]; [|reflexivity]. destruct (m_out x) as [|tag|c]; [reflexivity| |reflexivity]. cbn [Nat.add]. rewrite (p_response _ _ _ _ Pb). reflexivity.
      - now rewrite p_error. }
    destruct r as [[rs|p]|e]; cbn [answer_of_schema] in A.
    - destruct A as [A1 A2]. cbn [bind as_response]. now apply B.
    - cbn [bind as_response]. now apply (B (new_response p VNone 200 None [])).
    - destruct e as [x t|code msg a]; cbn [bind as_response]; [reflexivity|]. now apply (B (new_response (PErr code msg a) VNone 200 None [])).
  Qed.
  Lemma p_dispatch w rq : dispatch P' D1 w rq = dispatch P D0 w rq.
  Proof.
    unfold dispatch. destruct (_ && _); [reflexivity|]. destruct (_ && _); [reflexivity|]. destruct (String.eqb _ "POST"); [|reflexivity].
    unfold handle_soap_request. change (request_hook D1 "soap-request" w rq) with (request_hook D0 "soap-request" w rq). destruct (request_hook D0 "soap-request" w rq) as [w1 [rq1|]]; [|reflexivity].
    cbn [with_service d_middlewares]. rewrite p_stack. pose proof (stack_answers _ Mw (w1, rq1) []) as A. destruct (stack P D0 (d_middlewares D0) (w1, rq1) []) as [[[w2 rq2] tr] r]. cbn [snd] in A.
    rewrite (p_build rq2 r A). reflexivity.
  Qed.
End Peer.

(** ** From the document *)
Section Described.
  Variables (sort : sorter) (n : nat) (rt : runtime) (limit k : nat) (O : oracle) (lim sl : nat) (md5 : string -> string) (checked : string -> bool) (U : string -> option classdef) (G : decls) (rank : string -> nat).
  Variables (s : wservice) (a : address) (sc : gschema) (doc : xdocument) (root : node).
  Hypothesis LS : list_sort sort.
  Hypothesis Hn : 0 < n.
  Hypothesis Ds : described rt limit k O lim sl md5 U G rank s a sc doc root.
  Notation E := (soap_env U sl).
  Lemma from_document (server : bool) w : (if server then server_regenerable s else client_regenerable s) ->
    import_wsdl sort n rt limit (10 + k) O (lib_env lim) md5 checked server doc root = Ok w ->
    exists o m, schema_describable O E G sc /\ states_schema o (plan_of E sc) /\ import_schema sort n rt limit O nss_x o = Ok m /\ wl_schemas w = [m].
  Proof.
    intros Dir W. destruct Ds as [Hd Hr Hg Hs R Fa Nt Hx Lm Mc Cm Hw Hl].
    destruct (came_from sort n rt limit O lim E G rank k md5 checked s a sc doc root LS Hn Hd Hr Hg Hs R Nt Hx Hw Hl server w Dir W) as (o & m & So & Im & ->).
    exists o, m. split; [exact (describable_schema O E G s sc Hd Hs)|]. auto.
  Qed.
  Lemma messages_run W (S : service W) : runs s S ->
    Forall (fun x => exists i o, m_in x = IOName i /\ m_out x = IOName o /\ class_element rt sc i /\ class_element rt sc o) (sv_methods S).
  Proof.
    intros (_ & F). destruct Ds as [_ _ _ _ _ _ _ _ _ _ Cm _ _]. unfold class_messages in Cm. revert Cm. induction F as [|x y l l' (_ & _ & Ei & Eo) F IH]; intros Cm; [constructor|].
    constructor; [|apply IH; intros z Iz; apply Cm; now right]. rewrite Ei, Eo. apply Cm. now left.
  Qed.
  Lemma client_talks : client_regenerable s -> exists w m els g t,
    import_wsdl sort n rt limit (10 + k) O (lib_env lim) md5 checked false doc root = Ok w /\ wl_schemas w = [m] /\ regenerated (wl_state w) [els] s g /\
    assoc ((ws_name s ++ "Port") ++ "ServiceStub")%string (st_names (wl_state w)) = Some (WvStub t) /\ gt_service t = g /\
    forall W (S : service W) P cls (fns : string -> handler W), hosts O sl U s sc P S ->
    forall T (post : transport T) w op parameter, instance_of_schema sc parameter ->
    stub_call (with_module P limit sl m) (as_service g [0] cls fns) post w op parameter VNone = stub_call P S post w op parameter VNone.
  Proof.
    intros Cr. assert (Ds' := Ds). destruct Ds' as [Hd Hr Hg Hs R Fa Nt Hx Lm Mc Cm Hw Hl].
    destruct (client_module sort n rt limit O lim E G rank k md5 checked s a sc doc root LS Hn Hd Hr Hg Hs R Nt Hx Hw Hl Cr) as (w & m & els & g & t & W & Wm & _ & Rg & St & Sg & _).
    exists w, m, els, g, t. split; [exact W|]. split; [exact Wm|]. split; [exact Rg|]. split; [exact St|]. split; [exact Sg|].
    destruct (from_document false w Cr W) as (o & m' & Dsc & So & Im & Wm'). rewrite Wm in Wm'. injection Wm' as <-.
    intros W0 S P cls fns [PE PO Pn Pg Ru Hh Sch] T post w0 op parameter Ip. destruct (Nat.le_exists_sub _ _ Pn) as (j & Ej & _).
    assert (Ej' : pf_n P = 4 + j) by (rewrite Ej; apply Nat.add_comm).
    transitivity (stub_call (with_module P limit sl m) (moved W0 S) post w0 op parameter VNone).
    - exact (same_stub_call s g (wl_state w) [els] W0 (moved W0 S) Rg Ru Hh T (with_module P limit sl m) cls fns post w0 op parameter VNone).
    - exact (p_stub_call sort n rt limit U sl G sc rank o O LS Hn Dsc R Fa So m Im Lm Mc P PE PO Pg W0 S Sch j Ej' Hh (messages_run W0 S Ru) T post w0 op parameter Ip).
  Qed.
  Lemma same_methods (W : Type) (S : service W) g st els cls fns : regenerated st els s g -> Forall2 calls_function (ws_methods s) (gv_methods g) -> runs s S -> headerless S -> calls_by_name S ->
    fns = sv_fns S -> as_service g [0] cls fns = moved W S.
  Proof.
    intros (_ & _ & _ & Ev & _ & Fm) Fc (Sv & Fr) Hh (Ih & Cn) ->. unfold as_service, moved. rewrite Ev, Sv, Ih. f_equal.
    unfold headerless in Hh. revert Fc Fr Hh Cn. generalize (sv_methods S). induction Fm as [|x y l l' (A1 & A2 & A3 & A4 & _ & A6 & A7) Fm IH]; intros ms Fc Fr Hh Cn; inversion Fr as [|? z ? ms' (B1 & B2 & B3 & B4) Fr']; subst; [reflexivity|].
    inversion_clear Fc as [|? ? ? ? (f & C1 & C2 & _) Fc']. inversion_clear Hh as [|? ? (H1 & H2) Hh']. inversion_clear Cn as [|? ? N1 Cn']. cbn [map]. f_equal; [|now apply IH].
    unfold as_method. destruct z. cbn in *. rewrite A1, A2, A3, A4, A6, A7, C1. cbn. subst. congruence.
  Qed.
  Lemma server_talks : server_regenerable s -> exists w m els g,
    import_wsdl sort n rt limit (10 + k) O (lib_env lim) md5 checked true doc root = Ok w /\ wl_schemas w = [m] /\ regenerated (wl_state w) [els] s g /\
    forall W (D : dispatcher W) P cls, hosts O sl U s sc P (d_service D) -> calls_by_name (d_service D) ->
    functions_answer sc (sv_fns (d_service D)) -> middlewares_answer sc (d_middlewares D) ->
    forall w rq, dispatch (with_module P limit sl m) (with_service D (as_service g [0] cls (sv_fns (d_service D)))) w rq = dispatch P D w rq.
  Proof.
    intros Sr. assert (Ds' := Ds). destruct Ds' as [Hd Hr Hg Hs R Fa Nt Hx Lm Mc Cm Hw Hl].
    destruct (server_module sort n rt limit O lim E G rank k md5 checked s a sc doc root LS Hn Hd Hr Hg Hs R Nt Hx Hw Hl Sr) as (w & m & els & g & W & Wm & _ & Rg & Cf).
    exists w, m, els, g. split; [exact W|]. split; [exact Wm|]. split; [exact Rg|].
    destruct (from_document true w Sr W) as (o & m' & Dsc & So & Im & Wm'). rewrite Wm in Wm'. injection Wm' as <-.
    intros W0 D P cls [PE PO Pn Pg Ru Hh Sch] Cn Fn Mw w0 rq. destruct (Nat.le_exists_sub _ _ Pn) as (j & Ej & _).
    assert (Ej' : pf_n P = 4 + j) by (rewrite Ej; apply Nat.add_comm).
    rewrite (same_methods W0 (d_service D) g (wl_state w) [els] cls _ Rg Cf Ru Hh Cn eq_refl).
    exact (p_dispatch sort n rt limit U sl G sc rank o O LS Hn Dsc R Fa So m Im Lm Mc P PE PO Pg W0 (d_service D) Sch j Ej' Hh (messages_run W0 _ Ru) D eq_refl (proj1 Cn) Fn Mw w0 rq).
  Qed.
End Described.

(** ** Both ends *)
Lemma post_same W (h : hosting) P P' (D D' : dispatcher W) base : (forall w rq, dispatch P' D' w rq = dispatch P D w rq) ->
  forall w headers data, post_through h P' D' base w headers data = post_through h P D base w headers data.
Proof.
  intros Eq w headers data. destruct h; cbn [post_through]; unfold wsgi_post, django_post, flask_post, wsgi_app, django_dispatch, flask_dispatch, adapter; [destruct (match _ with Some _ => _ | None => _ end); [|reflexivity]| |]; now rewrite Eq.
Qed.
Lemma call_same W T P (S : service W) (post post' : transport T) w op parameter header : (forall w headers data, post' w headers data = post w headers data) ->
  stub_call P S post' w op parameter header = stub_call P S post w op parameter header.
Proof.
  intros Eq. unfold stub_call. destruct (get_method (sv_methods S) op) as [m|]; [|reflexivity]. destruct (stub_request P S m parameter header) as [[h d]|]; [|reflexivity]. now rewrite Eq.
Qed.
(** What a call of a service without headers gives (C50). *)
Lemma call_gives :
  forall s (W : Type) P Q (D : dispatcher W) a base op w m f tag parameter call,
  runs s (d_service D) -> headerless (d_service D) -> soap_platform P -> good_classes P Q -> plain D -> callable P Q D a base op m f tag parameter VNone ->
  call = stub_call P (d_service D) (post_through a P D base) w op parameter VNone ->
  exists data rq', reaches_handler P D (new_request (seen a base (request_headers (ws_version s) (m_action m)) data) data) rq' f /\
    rq_method rq' = Some m /\ erase (rq_body rq') = erase parameter /\
    (forall w' rq2 r out, sv_fns (d_service D) f (w, rq') (rq_body rq') = ((w', rq2), Ok r) ->
       rq_method rq2 = Some m -> rs_body (as_response r) = PVal out -> rs_header (as_response r) = VNone -> returnable P Q D m out VNone ->
       exists out', call = (w', Ok (CReturned out' VNone)) /\ erase out' = erase out) /\
    (forall w' rq2 code msg actor, sv_fns (d_service D) f (w, rq') (rq_body rq') = ((w', rq2), Err (SOAPError code msg actor)) ->
       text_good code -> text_good msg ->
       (forall x, error_response (pf_n P) (pf_O P) (pf_E P) (ws_version s) code msg VNone None = Ok x -> transmits P x) ->
       call = (w', Ok (CRaised (VStr code) (VStr msg) VNone))).
Proof.
  intros s W P Q D a base op w m f tag parameter call Hr Hh SP GC PD C Ec. rewrite Ec. clear Ec call.
  destruct (call_works P Q D a base op w m f tag parameter VNone SP GC PD C) as (data & rq' & R & Rm & Rb & Rh & Ret & Flt).
  assert (Im : In m (sv_methods (d_service D))). { destruct C as [(l1 & l2 & -> & _) _ _ _ _ _ _ _]. apply in_elt. }
  unfold headerless in Hh. rewrite Forall_forall in Hh. destruct (Hh m Im) as (Hi & Ho). destruct Hr as (Sv & _). rewrite Sv in R, Flt.
  exists data, rq'. split; [exact R|]. split; [exact Rm|]. split; [exact Rb|]. split.
  - intros w' rq2 r out Hf Hm Hb Hhd Hret. destruct (Ret w' rq2 r out VNone Hf Hm Hb Hhd Hret) as (out' & hout' & St & Eout & Hro). exists out'. split; [|exact Eout].
    rewrite St. unfold header_received in Hro. rewrite Ho in Hro. now rewrite Hro.
  - intros w' rq2 code msg actor Hf G1 G2 Tr. apply (Flt w' rq2 (Err (SOAPError code msg actor)) code msg actor VNone Hf); auto. now left.
Qed.
Section Both.
  Variables (sort : sorter) (n : nat) (rt : runtime) (limit k : nat) (O : oracle) (lim sl : nat) (md5 : string -> string) (checked : string -> bool) (U : string -> option classdef) (G : decls) (rank : string -> nat).
  Variables (s : wservice) (a : address) (sc : gschema) (doc : xdocument) (root : node).
  Hypothesis LS : list_sort sort.
  Hypothesis Hn : 0 < n.
  Hypothesis Ds : described rt limit k O lim sl md5 U G rank s a sc doc root.
  Notation import server := (import_wsdl sort n rt limit (10 + k) O (lib_env lim) md5 checked server doc root).
  Lemma client_calls : client_regenerable s -> exists w m els g,
    import false = Ok w /\ wl_schemas w = [m] /\ regenerated (wl_state w) [els] s g /\
    forall W (D : dispatcher W) P Q h base cls (fns : string -> handler W) op w x f tag parameter,
    hosts O sl U s sc P (d_service D) -> soap_platform P -> good_classes P Q -> plain D -> callable P Q D h base op x f tag parameter VNone -> instance_of_schema sc parameter ->
    let call := stub_call (with_module P limit sl m) (as_service g [0] cls fns) (post_through h P D base) w op parameter VNone in
    exists data rq', reaches_handler P D (new_request (seen h base (request_headers (ws_version s) (m_action x)) data) data) rq' f /\
      rq_method rq' = Some x /\ erase (rq_body rq') = erase parameter /\
      (forall w' rq2 r out, sv_fns (d_service D) f (w, rq') (rq_body rq') = ((w', rq2), Ok r) ->
         rq_method rq2 = Some x -> rs_body (as_response r) = PVal out -> rs_header (as_response r) = VNone -> returnable P Q D x out VNone ->
         exists out', call = (w', Ok (CReturned out' VNone)) /\ erase out' = erase out) /\
      (forall w' rq2 code msg actor, sv_fns (d_service D) f (w, rq') (rq_body rq') = ((w', rq2), Err (SOAPError code msg actor)) ->
         text_good code -> text_good msg ->
         (forall x, error_response (pf_n P) (pf_O P) (pf_E P) (ws_version s) code msg VNone None = Ok x -> transmits P x) ->
         call = (w', Ok (CRaised (VStr code) (VStr msg) VNone))).
  Proof.
    intros Cr. destruct (client_talks sort n rt limit k O lim sl md5 checked U G rank s a sc doc root LS Hn Ds Cr) as (w & m & els & g & t & W & Wm & Rg & _ & _ & Same).
    exists w, m, els, g. split; [exact W|]. split; [exact Wm|]. split; [exact Rg|].
    intros W0 D P Q h base cls fns op w0 x f tag parameter Ho SP GC PD C Ip call.
    exact (call_gives s W0 P Q D h base op w0 x f tag parameter call (ho_runs _ _ _ _ _ _ _ Ho) (ho_headerless _ _ _ _ _ _ _ Ho) SP GC PD C (Same W0 (d_service D) P cls fns Ho W0 (post_through h P D base) w0 op parameter Ip)).
  Qed.
  Lemma both_talk : client_regenerable s -> server_regenerable s -> exists wc mc elc gc ws ms els gs,
    import false = Ok wc /\ wl_schemas wc = [mc] /\ regenerated (wl_state wc) [elc] s gc /\
    import true = Ok ws /\ wl_schemas ws = [ms] /\ regenerated (wl_state ws) [els] s gs /\
    forall W (D : dispatcher W) P cls (fns : string -> handler W), hosts O sl U s sc P (d_service D) -> calls_by_name (d_service D) ->
    functions_answer sc (sv_fns (d_service D)) -> middlewares_answer sc (d_middlewares D) ->
    forall h base w op parameter, instance_of_schema sc parameter ->
    stub_call (with_module P limit sl mc) (as_service gc [0] cls fns)
      (post_through h (with_module P limit sl ms) (with_service D (as_service gs [0] cls (sv_fns (d_service D)))) base) w op parameter VNone =
    stub_call P (d_service D) (post_through h P D base) w op parameter VNone.
  Proof.
    intros Cr Sr. destruct (client_talks sort n rt limit k O lim sl md5 checked U G rank s a sc doc root LS Hn Ds Cr) as (wc & mc & elc & gc & t & Wc & Wmc & Rgc & _ & _ & Sc).
    destruct (server_talks sort n rt limit k O lim sl md5 checked U G rank s a sc doc root LS Hn Ds Sr) as (ws & ms & els & gs & Ws & Wms & Rgs & Ss).
    exists wc, mc, elc, gc, ws, ms, els, gs. split; [exact Wc|]. split; [exact Wmc|]. split; [exact Rgc|]. split; [exact Ws|]. split; [exact Wms|]. split; [exact Rgs|].
    intros W D P cls fns Ho Cn Fn Mw h base w op parameter Ip.
    rewrite (Sc W (d_service D) P cls fns Ho W _ w op parameter Ip). apply call_same. apply post_same. exact (Ss W D P cls Ho Cn Fn Mw).
  Qed.
End Both.
