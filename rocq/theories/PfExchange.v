(** Regenerated classes in place of the original ones. *)
From Coq Require Import String Ascii List ZArith NArith Bool Lia Permutation.
From Verif Require Import PyBase PfBase PyRe Xml PyVal XsdSimple XsdComplex XsdMeta PyHttp Soap Client LibClasses Py2Xsd SpecXsd SpecParse SpecRound SpecNames GenOrder SpecOrder Xsd2Py PyLoad
  XsdPrefixes SpecGenCode SpecGenWsdl SpecUrl SpecService SpecLoadable SpecReclass SpecExchange SpecSimple PfNames PfXsd PfXsd2 PfGenWsdl6 PfGenCode PfGenCode3 PfGenCode4 PfGenCode7 PfGenCode9 PfLoadable PfLoadable2 PfLoadable3 PfLoadable4
  PfService2 PfRegen PfReclass PfReclass2 PfReclass3 PfAgree PfParse PfRound PfRoundEx.
Import ListNotations.
Open Scope nat_scope.
Open Scope string_scope.
Open Scope list_scope.

Lemma string_exact rt limit O nss known x code m bl sts st name r q p local c b es enums pat : Forall (fun n => identifier n = true) known ->
  schema_code nss known x = Ok code -> load rt limit O code = Ok m ->
  has x "simpleTypes" (VList bl sts) -> In st sts -> has st "name" (VStr name) -> has st "restriction" r -> is_a r "Restriction" ->
  has r "base" (VStr q) -> qualified_name q p local ->
  In p nss -> lib_class (capital local) = Some (MSimple (SString c no_sfacets)) ->
  has r "enumerations" (VList b es) -> Forall2 (fun e s => has e "value" (VStr s)) es enums -> Forall plain_text enums ->
  states_pattern r pat -> (forall s, pat = Some s -> plain_pattern s) ->
  provides m (capital name) (TSimple (SString (capital name)
    {| sf_enum := enum_facet enums; sf_pattern := PfGenCode7.pattern_facet rt pat; sf_length := None; sf_minLength := None; sf_maxLength := None; sf_ws := None |})).
Proof.
  intros Kn C L Hx I Hn Hr Ir Hq Q Ip Hl He Hes Pl Sp Pp.
  destruct (restriction_bound _ _ _ _ _ _ _ _ _ _ _ _ _ _ _ _ _ Kn C L Hx I Hn Hr Ir Hq Q (or_introl (conj Ip Hl))) as (enums' & kw & t' & Ee & Ek & Hs & A).
  assert (enums' = enums).
  { unfold enum_texts in Ee. rewrite (has_jget _ _ _ He) in Ee. cbn [jlist bind] in Ee. injection Ee as <-. clear - Hes.
    induction Hes as [|e s es ss H F IH]; [reflexivity|]. cbn [map]. now rewrite (has_jget _ _ _ H), IH. }
  subst enums'.
  assert (Ft : facet_text r "pattern" = pat).
  { unfold facet_text. destruct pat as [s|]; cbn in Sp.
    - destruct Sp as (v & Hv & Iv & Vv). now rewrite (has_jget _ _ _ Hv), (obj_truthy _ _ Iv), (has_jget _ _ _ Vv).
    - now rewrite (lacks_jget _ _ Sp). }
  rewrite Ft in Ek.
  set (rest := match facet_text r "minInclusive" with Some v => [("minInclusive", XRaw v)] | None => opt_const "minExclusive" XRaw (facet_text r "minExclusive") end ++
    match facet_text r "maxInclusive" with Some v => [("maxInclusive", XRaw v)] | None => opt_const "maxExclusive" XRaw (facet_text r "maxExclusive") end) in Ek.
  unfold provides. rewrite A. f_equal. symmetry.
  apply (string_fold rt (capital name) c enums pat _ kw rest t' Pl) with (4 := Ek); [| |reflexivity|exact Hs].
  - intros s ->. now apply plain_pattern_literal, Pp.
  - intros k Hk. unfold rest in Hk. destruct (facet_text r "minInclusive"), (facet_text r "minExclusive"), (facet_text r "maxInclusive"), (facet_text r "maxExclusive"); cbn in Hk;
    intros Hk'; cbn in Hk'; repeat destruct Hk as [<- | Hk]; try destruct Hk; intuition discriminate.
Qed.
Lemma string_exact_printed :
  forall sort n rt limit O nss known x code m bl sts st name r q p local c b es enums pat, list_sort sort -> Forall (fun n => identifier n = true) known ->
  schema_to_py sort n nss known x = Ok code -> load rt limit O code = Ok m ->
  has x "simpleTypes" (VList bl sts) -> In st sts -> has st "name" (VStr name) -> has st "restriction" r -> is_a r "Restriction" ->
  has r "base" (VStr q) -> qualified_name q p local ->
  In p nss -> lib_class (capital local) = Some (MSimple (SString c no_sfacets)) ->
  has r "enumerations" (VList b es) -> Forall2 (fun e s => has e "value" (VStr s)) es enums -> Forall plain_text enums ->
  states_pattern r pat -> (forall s, pat = Some s -> plain_pattern s) ->
  provides m (capital name) (TSimple (SString (capital name)
    {| sf_enum := enum_facet enums; sf_pattern := PfGenCode7.pattern_facet rt pat; sf_length := None; sf_minLength := None; sf_maxLength := None; sf_ws := None |})).
Proof. printed string_exact. Qed.

Section Exchange.
  Variables (sort : sorter) (n : nat) (rt : runtime) (limit : nat) (O : oracle) (E : env) (G : decls) (s : gschema) (rank : string -> nat).
  Variable o : pyval.
  Hypothesis LS : list_sort sort.
  Hypothesis Hn : 0 < n.
  Hypothesis D : schema_describable O E G s.
  Hypothesis R : schema_reproducible E G limit rank s.
  Hypothesis Fa : schema_faithful rt E s.
  Hypothesis So : states_schema o (plan_of E s).
  Variable m : module.
  Hypothesis Rg : import_schema sort n rt limit O nss_x o = Ok m.

  Lemma strings_back st u : In st (gs_simple s) -> string_class rt st u -> provides m (sc_name st) (TSimple u).
  Proof.
    intros I ((c & Eb) & Ef & Ep & ->).
    pose proof Rg as Rg'. unfold import_schema in Rg'.
    apply bind_ok in Rg' as (code & C & L). assert (So' := So). destruct So' as (_ & _ & (b & sts & Hs & Fs) & _).
    assert (Is : In (simple_of st) (sc_simples (plan_of E s))) by (apply (in_map simple_of _ _ I)).
    destruct (forall2_right _ _ _ Fs _ Is) as (so & Io & (Hnm & _ & r & b' & es & Hr & Ar & Hb & Hes & Fe & Hf)). cbn [simple_of sp_name sp_base sp_enums sp_facets] in *.
    assert (R' := R). destruct R' as (_ & _ & _ & _ & _ & _ & _ & Fr & _). rewrite Forall_forall in Fr. destruct (Fr st I) as (Lb & Pe & Pp).
    destruct (library_named _ Lb) as (local & El & Cl & Nl & Ecl & Ab). rewrite El in Hb.
    assert (Sp : states_pattern r (match sc_pattern st with VStr p => Some p | _ => None end)).
    { specialize (Hf "pattern" (or_introl eq_refl)). unfold pattern_facet in Hf. rewrite Ef in Hf. cbn [st_text] in Hf.
      destruct Ep as [Ep | (p & Ep & Np)]; rewrite Ep in *; cbn [st_text] in Hf; [exact Hf|].
      destruct p as [|a p]; [congruence|]. cbn [assoc String.eqb Ascii.eqb Bool.eqb] in Hf. destruct Hf as (v & V1 & V2 & V3). exists v. auto. }
    pose proof (string_exact_printed sort n rt limit O nss_x [] o code m b sts so (type_name (sc_name st)) r _ (Some "xsd") local c b' es (strings (sc_enum st)) (match sc_pattern st with VStr p => Some p | _ => None end)
      LS (Forall_nil _) C L Hs Io Hnm Hr Ar Hb (qualified_lib local Cl) (or_introl eq_refl)) as Pv.
    destruct (names_fine E G limit rank s R (sc_name st)) as [_ Cn]; [apply in_simple, (in_map sc_name _ _ I)|]. rewrite (name_back _ Cn) in Pv.
    replace (match strings (sc_enum st) with [] => None | s0 :: l => Some (s0 :: l) end) with (enum_facet (strings (sc_enum st))) by (now destruct (strings (sc_enum st))).
    replace (match sc_pattern st with VStr p => Some (rt_re rt p) | _ => None end) with (PfGenCode7.pattern_facet rt (match sc_pattern st with VStr p => Some p | _ => None end)).
    - apply Pv; auto.
      + rewrite Ecl, <- Eb. apply Lb.
      + intros q Eq. destruct (sc_pattern st) eqn:Epp; try discriminate Eq. injection Eq as ->. now apply Pp.
    - destruct Ep as [-> | (p & -> & Np)]; [reflexivity|]. cbn. unfold pattern_of. destruct (String.eqb_spec p ""); [contradiction|reflexivity].
  Qed.
  Lemma types_back t t' : same_type m t t' -> (forall u, t = TSimple u -> library_simple u \/ exists st, In st (gs_simple s) /\ string_class rt st u) -> t' = t.
  Proof.
    intros St Fu. destruct t as [u|c]; cbn [same_type] in St; [|exact St]. destruct St as [[_ St] | (Nl & u' & -> & Pv)]; [exact St|].
    destruct (Fu u eq_refl) as [[Lu _] | (st & I & Sc)]; [congruence|]. pose proof (strings_back st u I Sc) as P.
    assert (Eu : st_class u = sc_name st) by (destruct Sc as (_ & _ & _ & ->); reflexivity). rewrite Eu in Pv. unfold provides in *.
    destruct (assoc (sc_name st) (ms_names (md_state m))) as [[|]|]; [discriminate|congruence|contradiction].
  Qed.

  Definition own (c : string) : Prop := In c (gs_complex s).
  Lemma fields_back c nm f f' : field_reproducible G s rank c nm f -> field_faithful rt s f -> same_field m f f' -> alike own f f'.
  Proof.
    intros (_ & W & _ & Tk & K) (Fn & Ft & Fd & Fns & Fl & Fu) (S1 & S2 & S3 & S4 & S5 & S6 & S7 & S8 & S9 & S10).
    assert (Em : forall y, matches f' y = matches f y).
    { intros y. destruct y as [tag a kids| | |]; try reflexivity. cbn [matches]. f_equal. rewrite S3, <- Fn.
      destruct (String.eqb_spec (local_name tag) (f_name f)) as [Ey|Ey]; [reflexivity|]. cbn [orb].
      assert (T : forall g, f_name g = f_name f -> tag_or_name g = tag_or_name f -> f_tag g <> Some "" -> (forall t, f_tag g = Some t -> t = tag_or_name f) ->
        match f_tag g with Some t => String.eqb (local_name tag) t | None => false end = String.eqb (local_name tag) (tag_or_name f)).
      { intros g Gn Gt Ge Gs. destruct (f_tag g) as [t|] eqn:Eg; [now rewrite (Gs t eq_refl)|]. rewrite <- Gt. unfold tag_or_name. rewrite Eg, Gn.
        symmetry. now apply String.eqb_neq. }
      rewrite (T f'), (T f); auto.
      - intros t Et. unfold tag_or_name. rewrite Et. destruct (String.eqb_spec t "") as [->|]; [congruence|reflexivity].
      - now rewrite S3, <- Fn.
      - intros Ef'. pose proof (S2 _ Ef') as Z. rewrite <- Z in W. destruct W as ((? & ? & W & _) & _). discriminate W. }
    constructor; auto; try congruence.
    - destruct K as [[K _] | [K _]]; auto.
    - now apply types_back.
    - intros c' Ec. rewrite Ec in Tk. exact Tk.
    - intros Kl. destruct (S7 Kl) as [T1 T2]. split; [|exact T2]. rewrite T1. unfold tag_or_name. destruct (f_tag f) as [t|] eqn:Et; [|exfalso; now apply (Fl Kl)].
      destruct (String.eqb_spec t "") as [->|]; [congruence|reflexivity].
  Qed.
  Lemma classes_back c : own c -> exists d d', e_cls E c = Some d /\ e_cls (module_env limit (md_state m)) c = Some d' /\ cd_kind d = CKPlain /\ cd_kind d' = CKPlain /\
    In c (cd_mro d) /\ In c (cd_mro d') /\ cd_ind d' = cd_ind d /\ cd_schema d' = cd_schema d /\ Forall2 (alike own) (cd_fields d) (cd_fields d').
  Proof.
    intros I. assert (Fa' := Fa). unfold schema_faithful in Fa'. rewrite Forall_forall in Fa'. destruct (Fa' c I) as (d & H & Kd & Md & Sd & Ff).
    destruct (o_same sort n rt limit O E G s rank LS Hn D R o So m Rg c d I H) as (d' & H' & (M' & K' & I' & F') & S').
    exists d, d'. split; [exact H|]. split; [exact H'|]. split; [exact Kd|]. split; [exact K'|]. split; [exact Md|]. split; [rewrite M'; now left|]. split; [exact I'|].
    split; [congruence|].
    assert (R' := R). destruct R' as (_ & _ & _ & _ & _ & _ & _ & _ & Fc & _). rewrite Forall_forall in Fc. destruct (Fc c I) as (d0 & H0 & _ & Fr & _).
    rewrite H in H0. injection H0 as <-. clear - F' Fr Ff Fa D R So Rg LS Hn. induction F' as [|f f' l l' Hf F IH]; [constructor|]. inversion_clear Fr as [|? ? Fr1 Fr2]. inversion_clear Ff as [|? ? Ff1 Ff2].
    constructor; [now apply fields_back with c c|auto].
  Qed.
  Lemma classes_agree c : own c -> exists d d', e_cls E c = Some d /\ e_cls (module_env limit (md_state m)) c = Some d' /\ cd_kind d' = cd_kind d /\
    In c (cd_mro d) /\ In c (cd_mro d') /\ cd_ind d' = cd_ind d /\ cd_schema d' = cd_schema d /\ Forall2 (alike own) (cd_fields d) (cd_fields d').
  Proof. intros I. destruct (classes_back c I) as (d & d' & H & H' & K & K' & Rest). exists d, d'. split; [exact H|]. split; [exact H'|]. split; [congruence|exact Rest]. Qed.
  Lemma classes_plain c d : own c -> e_cls E c = Some d -> cd_kind d = CKPlain /\ Forall (fun f => f_kind f <> KClassNamed) (cd_fields d).
  Proof.
    intros I H. destruct (classes_back c I) as (d1 & _ & H1 & _ & K & _). rewrite H in H1. injection H1 as <-. split; [exact K|].
    assert (R' := R). destruct R' as (_ & _ & _ & _ & _ & _ & _ & _ & Fc & _). rewrite Forall_forall in Fc. destruct (Fc c I) as (d0 & H0 & _ & Fr & _).
    rewrite H in H0. injection H0 as <-. eapply Forall_impl; [|exact Fr]. intros f (_ & _ & _ & _ & [[-> _] | [-> _]]); discriminate.
  Qed.
  Lemma names_differ c d : own c -> e_cls E c = Some d -> NoDup (map f_name (cd_fields d)).
  Proof.
    intros I H. assert (Fa' := Fa). unfold schema_faithful in Fa'. rewrite Forall_forall in Fa'. destruct (Fa' c I) as (d1 & H1 & _ & _ & _ & Ff).
    assert (R' := R). destruct R' as (_ & _ & _ & _ & _ & _ & _ & _ & Fc & _). rewrite Forall_forall in Fc. destruct (Fc c I) as (d0 & H0 & Nd & _).
    rewrite H in H0, H1. injection H0 as <-. injection H1 as <-. rewrite (map_ext_in f_name (fun f => python_name (tag_or_name f))); [exact Nd|].
    intros f If. rewrite Forall_forall in Ff. apply (Ff f If).
  Qed.
  Lemma instances c : own c -> exists fs, new_instance O (module_env limit (md_state m)) c = Ok fs.
  Proof.
    intros I. destruct (o_classes sort n rt limit O E G s rank LS Hn D R o So) as (m' & Rg' & _ & N). rewrite Rg in Rg'. injection Rg' as <-. now apply N.
  Qed.
  Hypothesis Lm : limit <= e_limit E.

  Lemma o_reads_same c : own c -> forall j y, parse_obj j O (module_env limit (md_state m)) c y = parse_obj j O E c y.
  Proof. intros I j y. exact (parse_obj_same O E _ own classes_agree instances Lm names_differ j c y I). Qed.
  Lemma writes_same c v : own c -> made_of (gs_complex s) v -> forall j p ns efd, render_obj j O (module_env limit (md_state m)) c p v ns efd = render_obj j O E c p v ns efd.
  Proof. intros I Mv j p ns efd. exact (render_obj_same O E _ own classes_agree (gs_complex s) (fun c H => H) classes_plain j c p v ns efd I Mv). Qed.
  Lemma o_xml_same v : made_of (gs_complex s) v -> forall j tag ns efd, xml_of j O (module_env limit (md_state m)) v tag ns efd = xml_of j O E v tag ns efd.
  Proof.
    intros Mv j tag ns efd. unfold xml_of. destruct (mk_element _) as [y|]; [|reflexivity]. cbn [bind]. destruct Mv as [c xe fs I F|b l F|v No Nl]; [|reflexivity|destruct v; try reflexivity; exfalso; eapply No; reflexivity].
    cbn [obj_parts bind fst]. apply writes_same; [exact I|now constructor].
  Qed.
  Lemma o_builds_same c kw : own c -> flat E s -> Forall (fun p => made_of (gs_complex s) (snd p)) kw ->
    construct O (module_env limit (md_state m)) c kw = construct O E c kw.
  Proof.
    intros I Fl Fk. unfold construct, get_class. destruct (classes_back c I) as (d & d' & H & H' & _ & _ & _ & _ & _ & _ & FF). rewrite H, H'. cbn [bind].
    rewrite (new_instance_same O E _ own classes_agree instances Lm c I). destruct (new_instance O E c) as [fs|]; [|reflexivity]. cbn [bind].
    rewrite (foldM_same1 (fun fs p => setattr O E (cd_fields d) fs (fst p) (snd p)) (fun fs p => setattr O (module_env limit (md_state m)) (cd_fields d') fs (fst p) (snd p)) kw); [reflexivity|].
    intros b [name v] Ip. cbn [fst snd]. rewrite Forall_forall in Fk. specialize (Fk _ Ip). cbn [snd] in Fk.
    unfold setattr. destruct (find_field_same own (cd_fields d) (cd_fields d') name FF) as [[-> ->] | (f & f' & -> & -> & A & _)]; [reflexivity|]. cbn [bind].
    assert (Ac : field_accept O (module_env limit (md_state m)) f' v = field_accept O E f v); [|now rewrite Ac].
    unfold field_accept. rewrite (al_kind _ _ _ A), (al_nil _ _ _ A), (al_type _ _ _ A). destruct (f_type f) as [u|ct] eqn:Et; [reflexivity|].
    cbn [type_accept]. pose proof (al_closed _ _ _ A ct Et) as Oc.
    assert (Ca : complex_accept (module_env limit (md_state m)) ct v = complex_accept E ct v); [|now rewrite Ca].
    unfold complex_accept, get_class. destruct (classes_back ct Oc) as (dt & dt' & T & T' & Kt & Kt' & _). rewrite T, T'. cbn [bind]. rewrite Kt, Kt'.
    destruct Fk as [c0 xe fs0 I0 F0|b0 l F0|v No Nl]; [|reflexivity|destruct v; try reflexivity; exfalso; eapply No; reflexivity].
    assert (Ei : is_instance (module_env limit (md_state m)) (VObj c0 xe fs0) ct = is_instance E (VObj c0 xe fs0) ct); [|now rewrite Ei].
    unfold is_instance. destruct (classes_back c0 I0) as (e & e' & U & U' & _ & _ & Me & Me' & _). rewrite U, U'.
    destruct (o_same sort n rt limit O E G s rank LS Hn D R o So m Rg c0 e I0 U) as (e2 & V' & (M2 & _) & _).
    unfold module_class in V'. cbn [e_cls module_env] in V', U'. rewrite U' in V'. injection V' as <-.
    destruct (String.eqb_spec ct c0) as [->|Nc]; [now rewrite !str_in_true|].
    rewrite M2. transitivity false.
    - destruct (str_in ct [c0; "xsd.ComplexType"]) eqn:Si; [|reflexivity]. apply str_in_spec in Si. destruct Si as [->|[<-|[]]]; [contradiction|].
      exfalso. destruct (names_fine E G limit rank s R _ (in_complex s _ Oc)) as [U0 _]. apply PfService2.usable_ident in U0. discriminate U0.
    - symmetry. destruct (str_in ct (cd_mro e)) eqn:Si; [|reflexivity]. apply str_in_spec in Si. exfalso. apply Nc. exact (Fl c0 ct e I0 Oc U Si).
  Qed.
  Lemma o_exchanged : rt_classes O E own -> forall c v tag ns efd j, own c -> rt_typed O E (TComplex c) v -> ncname_ok tag = true -> ns_good ns -> vdepth v <= j ->
    exists y, xml_of j O E v tag ns efd = Ok y /\
      forall pretty d, layout (wire y) pretty -> d = pretty \/ noise E c pretty d ->
      exists v', parse_obj j O (module_env limit (md_state m)) c d = Ok v' /\ erase v' = erase v.
  Proof.
    intros Rc c v tag ns efd j I Tv Nt Ng Le. destruct (roundtrip_wire O E own c v tag ns efd j Rc I Tv Nt Ng Le) as (y & Hy & P). exists y. split; [exact Hy|].
    intros pretty d0 Ly Nz. rewrite (o_reads_same c I). exact (P pretty d0 Ly Nz).
  Qed.
End Exchange.

(** ** From the document *)
Section Document.
  Variables (sort : sorter) (n : nat) (rt : runtime) (limit lim k : nat) (O : oracle) (E : env) (G : decls) (s : gschema) (rank : string -> nat).
  Variables (doc : xdocument) (x : node).
  Hypothesis LS : list_sort sort.
  Hypothesis Hn : 0 < n.
  Hypothesis D : schema_describable O E G s.
  Hypothesis R : schema_reproducible E G limit rank s.
  Hypothesis Fa : schema_faithful rt E s.
  Hypothesis Gd : generate_xsd (8 + k) O (lib_env lim) E G s = Ok doc.
  Hypothesis Rx : received (lib_env lim) (xs "Schema") (xd_root doc) x.
  Variable m : module.
  Hypothesis Rg : regenerate sort n rt limit (8 + k) O (lib_env lim) doc x = Ok m.
  Lemma from_object : exists o, states_schema o (plan_of E s) /\ import_schema sort n rt limit O nss_x o = Ok m.
  Proof. destruct (regenerate_is sort n rt limit lim k O E G s rank doc x D R Gd Rx) as (o & So & Eq). exists o. split; [exact So|]. now rewrite <- Eq. Qed.
  Lemma xml_same v : made_of (gs_complex s) v -> forall j tag ns efd, xml_of j O (module_env limit (md_state m)) v tag ns efd = xml_of j O E v tag ns efd.
  Proof. destruct from_object as (o & So & I). exact (o_xml_same sort n rt limit O E G s rank o LS Hn D R Fa So m I v). Qed.
  Hypothesis Lm : limit <= e_limit E.
  Lemma reads_same c : In c (gs_complex s) -> forall j y, parse_obj j O (module_env limit (md_state m)) c y = parse_obj j O E c y.
  Proof. destruct from_object as (o & So & I). exact (o_reads_same sort n rt limit O E G s rank o LS Hn D R Fa So m I Lm c). Qed.
  Lemma builds_same c kw : In c (gs_complex s) -> flat E s -> Forall (fun p => made_of (gs_complex s) (snd p)) kw ->
    construct O (module_env limit (md_state m)) c kw = construct O E c kw.
  Proof. destruct from_object as (o & So & I). exact (o_builds_same sort n rt limit O E G s rank o LS Hn D R Fa So m I Lm c kw). Qed.
  Lemma exchanged : rt_classes O E (fun c => In c (gs_complex s)) -> forall c v tag ns efd j, In c (gs_complex s) -> rt_typed O E (TComplex c) v -> ncname_ok tag = true -> ns_good ns -> vdepth v <= j ->
    exists y, xml_of j O E v tag ns efd = Ok y /\
      forall pretty d, layout (wire y) pretty -> d = pretty \/ noise E c pretty d ->
      exists v', parse_obj j O (module_env limit (md_state m)) c d = Ok v' /\ erase v' = erase v.
  Proof. destruct from_object as (o & So & I). exact (o_exchanged sort n rt limit O E G s rank o LS Hn D R Fa So m I Lm). Qed.
End Document.
