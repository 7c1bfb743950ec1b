(** Classes regenerated from the XSD document generated from them: what is the same. *)
From Coq Require Import String Ascii List ZArith NArith Bool Lia Permutation.
From Verif Require Import PyBase PfBase PyRe Xml PyVal XsdSimple XsdComplex XsdMeta PyHttp Soap Client LibClasses Py2Xsd SpecXsd SpecParse SpecRound SpecNames GenOrder SpecOrder Xsd2Py PyLoad
  XsdPrefixes SpecGenCode SpecGenWsdl SpecUrl SpecService SpecLoadable SpecReclass SpecSimple PfNames PfXsd PfXsd2 PfGenWsdl6 PfLoad2 PfGenCode PfGenCode2 PfGenCode3 PfGenCode4 PfGenCode5 PfGenCode9 PfLoadable PfLoadable2 PfLoadable3 PfLoadable4
  PfRegen PfReclass PfReclass2.
Import ListNotations.
Open Scope nat_scope.
Open Scope string_scope.
Open Scope list_scope.

(** ** The names of the elements *)
Lemma merge_names {A} (l : list (string * A)) : forall d, NoDup (map fst d ++ map fst l) ->
  map fst (fold_left (fun d p => assoc_set (fst p) (snd p) d) l d) = map fst d ++ map fst l.
Proof.
  assert (Add : forall k (v : A) d, ~ In k (map fst d) -> assoc_set k v d = d ++ [(k, v)]).
  { intros k v. induction d as [|[k0 v0] d IH]; intros N; [reflexivity|]. cbn [assoc_set map fst In] in *. destruct (String.eqb_spec k k0) as [->|_]; [exfalso; auto|]. cbn [app]. now rewrite IH by tauto. }
  induction l as [|[k v] l IH]; intros d N; cbn [fold_left map fst snd] in *; [now rewrite app_nil_r|].
  pose proof (NoDup_remove_2 _ _ _ N) as Nk. rewrite Add by (intros I; apply Nk, in_or_app; now left). rewrite IH; rewrite map_app; cbn [map fst]; rewrite <- app_assoc; [reflexivity|exact N].
Qed.
Lemma element_names rt limit O nss known x code m bl els names : schema_code nss known x = Ok code -> load rt limit O code = Ok m ->
  has x "elements" (VList bl els) -> Forall2 (fun e n => has e "name" (VStr n)) els names -> NoDup names -> Forall plain_text names -> map fst (md_elements m) = names.
Proof.
  intros C L Hx Hns Nd Pl. destruct (schema_parts _ _ _ _ C) as (sts & ags & gs & cts & els0 & p1 & c2 & c3 & p4 & c5 & _ & _ & _ & _ & J & _ & _ & _ & _ & _ & _ & _ & _ & _ & _ & _ & _ & Ge & _ & K4).
  rewrite (has_jget _ _ _ Hx) in J. injection J as <-.
  destruct (schema_executed _ _ _ _ _ L) as (ms & tops & els' & _ & _ & _ & T1 & T2 & Em & _).
  assert (E1 : map fst (gz_elements (snd code)) = names).
  { apply PfLoad2.mapM_forall2 in Ge. clear - Ge Hns. revert Ge. generalize (gz_elements (snd code)). induction Hns as [|e' n' es ns H F IH]; intros l Ge; inversion_clear Ge as [|? g ? gs Hg Gs]; [reflexivity|].
    cbn [map]. rewrite (IH _ Gs). f_equal. apply bind_ok in Hg as (t & _ & Hg). injection Hg as <-. cbn [fst]. now rewrite (has_jget _ _ _ H). }
  assert (E2 : map fst tops = names).
  { rewrite <- E1 in Pl |- *. apply PfLoad2.mapM_forall2 in T1. clear - T1 Pl. induction T1 as [|p q l l' H F IH]; [reflexivity|]. cbn [map] in *. inversion_clear Pl as [|? ? P1 P2].
    rewrite (IH P2). f_equal. rewrite (plain_literal rt false _ P1) in H. cbn [bind] in H. apply bind_ok in H as (t & _ & H). apply bind_ok in H as (sg & _ & H). injection H as <-. reflexivity. }
  assert (E3 : map fst els' = names).
  { rewrite <- E2. apply PfLoad2.mapM_forall2 in T2. clear - T2. induction T2 as [|p q l l' H F IH]; [reflexivity|]. cbn [map]. rewrite IH. f_equal. apply bind_ok in H as (t & _ & H). injection H as <-. reflexivity. }
  rewrite Em, merge_names; cbn [map app]; [exact E3|now rewrite E3].
Qed.
Lemma element_names_printed :
  forall sort k rt limit O nss known x code m bl els names, list_sort sort -> schema_to_py sort k nss known x = Ok code -> load rt limit O code = Ok m ->
  has x "elements" (VList bl els) -> Forall2 (fun e n => has e "name" (VStr n)) els names -> NoDup names -> Forall plain_text names -> map fst (md_elements m) = names.
Proof. printed element_names. Qed.

Section Same.
  Variables (sort : sorter) (n : nat) (rt : runtime) (limit : nat) (O : oracle) (E : env) (G : decls) (s : gschema) (rank : string -> nat).
  Hypothesis LS : list_sort sort.
  Hypothesis Hn : 0 < n.
  Hypothesis D : schema_describable O E G s.
  Hypothesis R : schema_reproducible E G limit rank s.
  Let plan := plan_of E s.

  Lemma tops_complex p : In p (gs_elements s) -> ge_class (snd p) = false -> exists c, ge_type (snd p) = TComplex c.
  Proof.
    intros I Ec. destruct D as (_ & _ & _ & _ & _ & _ & Hl). rewrite Forall_forall in Hl. destruct (Hl p I) as (_ & _ & H). rewrite Ec in H.
    destruct H as (c & -> & _). eauto.
  Qed.
  Lemma works : schema_works nss_x n limit plan rank.
  Proof. apply (plan_works E G); [exact R|exact tops_complex|exact Hn|apply D]. Qed.
  Section Object.
    Variable o : pyval.
    Hypothesis So : states_schema o plan.
  Section Module.
    Variables (code : list gclass * gschema_st) (m : module).
    Hypothesis C : schema_to_py sort n nss_x [] o = Ok code.
    Hypothesis L : load rt limit O code = Ok m.

    Lemma kinds : (forall c, In c (map sc_name (gs_simple s)) -> exists t, assoc c (ms_names (md_state m)) = Some (MSimple t)) /\
      (forall c, In c (gs_complex s) -> exists k, assoc c (ms_names (md_state m)) = Some (MComplex k)).
    Proof.
      destruct (loaded sort n rt nss_x limit plan rank O o LS works So) as (code' & m' & C' & L' & Ks & Kc). rewrite C in C'. injection C' as <-.
      rewrite L in L'. injection L' as <-. split; intros c I; [apply Ks|apply Kc].
      - unfold plan. now rewrite (plan_simples E G limit rank s R).
      - apply in_or_app. left. unfold plan. now rewrite (plan_complexes E G limit rank s R).
    Qed.
    Lemma denoted t t' : type_known s t -> denotes m nss_x (type_ref t) t' -> same_type m t t'.
    Proof.
      destruct kinds as [Ks Kc]. intros Tk (p & local & Q & Nl & Dt). destruct t as [u|c]; cbn [type_known same_type] in *.
      - destruct Tk as [Lu | Ou].
        + left. split; [exact Lu|]. destruct (library_named u Lu) as (l & El & Cl & _ & Ec & Au). rewrite El in Q.
          destruct (qualified_unique _ _ _ _ _ Q (qualified_lib l Cl)) as [-> ->]. destruct Dt as [[_ P] | [Np _]]; [|exfalso; apply Np; now left].
          unfold library_provides in P. rewrite Ec in P. destruct Lu as (Lu & _). rewrite Lu in P. exact P.
        + right. assert (Ou' := Ou). destruct Ou' as [I N]. split; [exact N|]. rewrite (own_simple_ref s u Ou) in Q.
          destruct (names_fine E G limit rank s R _ (in_simple s _ I)) as [U Cn].
          destruct (qualified_unique _ _ _ _ _ Q (qualified_ref _ U)) as [-> ->]. destruct Dt as [[[F | []] _] | [_ P]]; [discriminate F|].
          rewrite (name_back _ Cn) in P. assert (P' := P). unfold provides in P'. destruct (Ks _ I) as (u' & A). rewrite A in P'. exists u'. auto.
      - destruct (names_fine E G limit rank s R _ (in_complex s _ Tk)) as [U Cn].
        destruct (qualified_unique _ _ _ _ _ Q (qualified_ref _ U)) as [-> ->]. destruct Dt as [[[F | []] _] | [_ P]]; [discriminate F|].
        rewrite (name_back _ Cn) in P. unfold provides in P. destruct (Kc _ Tk) as (kk & A). now rewrite A in P.
    Qed.
    Lemma mirrored c nm f f' : field_reproducible G s rank c nm f -> mirrors m nss_x (particle_of f) f' -> same_field m f f'.
    Proof.
      intros (_ & _ & _ & Tk & K) (M1 & Mt & M2 & M3 & M4 & M5 & M6 & M7). cbn [particle_of pt_name pt_type pt_nil pt_attr pt_max pt_min] in *.
      split; [exact M1|]. split; [exact Mt|]. split; [exact M2|]. destruct K as [[K Mm] | [K [Mn _]]]; rewrite K in *.
      - rewrite Mm in M7. destruct M7 as (K' & Mg & Mi & Mx). rewrite K'. split; [reflexivity|]. split; [now apply denoted|]. auto 10.
      - cbn [many] in M7. destruct M7 as (K' & Mi). rewrite K'. split; [reflexivity|]. split; [now apply denoted|].
        split; [rewrite Mi; destruct Mn as [-> | ->]; reflexivity|]. split; [discriminate|]. auto.
    Qed.
    Lemma all_mirrored c nm l l' : Forall (field_reproducible G s rank c nm) l -> Forall2 (mirrors m nss_x) (map particle_of l) l' -> Forall2 (same_field m) l l'.
    Proof.
      intros F. revert l'. induction F as [|f l Hf F IH]; intros [|f' l'] M; try (exfalso; inversion M; fail); [constructor|].
      cbn [map] in M. assert (M1 : mirrors m nss_x (particle_of f) f' /\ Forall2 (mirrors m nss_x) (map particle_of l) l') by (inversion M; auto). destruct M1 as [M1 M2]. constructor; [now apply mirrored with c nm|auto].
    Qed.
  End Module.

  Lemma o_classes : exists m, import_schema sort n rt limit O nss_x o = Ok m /\
    Permutation (map fst (ms_names (md_state m))) (class_names s) /\
    forall c, In c (gs_complex s) -> exists fs, new_instance O (module_env limit (md_state m)) c = Ok fs.
  Proof.
    destruct (loadable sort n rt nss_x limit plan rank O o LS works So) as (code & m & C & L & Pm & N).
    exists m. unfold import_schema. rewrite C. cbn [bind]. split; [exact L|]. split.
    - unfold plan in Pm. now rewrite (plan_names E G limit rank s R tops_complex) in Pm.
    - intros c I. apply N, in_or_app. left. unfold plan. now rewrite (plan_complexes E G limit rank s R).
  Qed.
  Lemma o_same m : import_schema sort n rt limit O nss_x o = Ok m ->
    forall c d, In c (gs_complex s) -> e_cls E c = Some d ->
    exists d', module_class m c d' /\ same_class m c d d' /\ cd_schema d' = Some {| si_tns := Some (gs_tns s); si_efd := gs_efd s |}.
  Proof.
    unfold import_schema. intros Rg c d Ic Hd.
    destruct (loadable_classes sort n rt nss_x limit plan rank O o LS works So) as (code & m' & C & L & Cl). rewrite C in Rg. cbn [bind] in Rg. rewrite L in Rg. injection Rg as ->.
    assert (Ip : In (mkXp (type_name c) None (content_of (class_of E c))) (sc_complexes plan)) by (apply (in_map (fun c => mkXp (type_name c) None (content_of (class_of E c))) _ _ Ic)).
    destruct (Cl _ Ip eq_refl) as (d' & Md & Mr & Kd & In_ & Sc & F). cbn [cp_name cp_content] in *. destruct (names_fine E G limit rank s R _ (in_complex s _ Ic)) as [_ Cn].
    rewrite (name_back _ Cn) in Md, Mr. exists d'. split; [exact Md|]. split; [|exact Sc].
    assert (R' := R). destruct R' as (_ & _ & _ & _ & _ & _ & _ & _ & Fc & _). rewrite Forall_forall in Fc. destruct (Fc c Ic) as (d0 & Hd0 & _ & Hf & _).
    assert (d0 = d) as -> by congruence. rewrite (class_of_ok _ _ _ Hd) in *. cbn [content_of co_ind co_attrs co_elems app] in *.
    split; [exact Mr|]. split; [exact Kd|]. split; [exact In_|]. exact (all_mirrored code m C L c c _ _ Hf F).
  Qed.
  Lemma o_names m : import_schema sort n rt limit O nss_x o = Ok m -> map fst (md_elements m) = map fst (gs_elements s).
  Proof.
    unfold import_schema. intros Rg. apply bind_ok in Rg as (code & C & L). assert (So' := So). destruct So' as (_ & _ & _ & _ & (b & els & He & Fe) & _).
    assert (R' := R). destruct R' as (_ & _ & _ & _ & Nn & _ & _ & _ & _ & Ft). rewrite Forall_forall in Ft.
    apply (element_names_printed sort n rt limit O nss_x [] o code m b els); auto.
    - clear - Fe. unfold plan, plan_of in Fe. cbn [sc_tops] in Fe. remember (map (top_of E) (gs_elements s)) as ts. revert Heqts. generalize (gs_elements s).
      induction Fe as [|e t l ts (A & Nm & _) F IH]; intros [|g gl] Eq; try discriminate Eq; cbn [map]; constructor; injection Eq as -> ->; [exact Nm|now apply IH].
    - apply Forall_forall. intros a Ia. apply in_map_iff in Ia as (g & <- & Ig). now apply Ft.
  Qed.
  Lemma o_elements m : import_schema sort n rt limit O nss_x o = Ok m ->
    forall name el, In (name, el) (gs_elements s) ->
    exists t, assoc name (md_elements m) = Some (t, option_map written_group (ge_subst el)) /\
      if ge_class el then same_type m (ge_type el) t
      else t = TComplex (capital name) /\ exists c d d', ge_type el = TComplex c /\ e_cls E c = Some d /\ module_class m (capital name) d' /\ same_class m (capital name) d d'.
  Proof.
    unfold import_schema. intros Rg name el I.
    apply bind_ok in Rg as (code & C & L). assert (So' := So). destruct So' as (_ & _ & _ & _ & (b & els & He & Fe) & _).
    assert (R' := R). destruct R' as (_ & _ & _ & _ & Nn & _ & _ & _ & _ & Ft). rewrite Forall_forall in Ft. destruct (Ft _ I) as (_ & Gq & Tn). cbn [fst snd] in Tn, Gq.
    assert (It : In (top_of E (name, el)) (sc_tops plan)) by (apply (in_map (top_of E) _ _ I)).
    destruct (forall2_right _ _ _ Fe _ It) as (e & Ie & Se). unfold states_top, top_of in Se. cbn [tp_name tp_content tp_group fst snd] in Se. destruct Se as (Ae & Ne & Re & Ge & Te).
    assert (Gs : forall sg, keeps_group e sg -> sg = option_map written_group (ge_subst el)).
    { intros sg [K1 K2]. destruct (ge_subst el) as [v|]; cbn [option_map] in *; [|now apply K1]. destruct Ge as [Ge Nv]. apply K2; [exact Ge|exact Nv|]. now apply written_plain, Gq. }
    assert (Hnames : Forall2 (fun e n => has e "name" (VStr n)) els (map fst (gs_elements s))).
    { clear - Fe. unfold plan, plan_of in Fe. cbn [sc_tops] in Fe. remember (map (top_of E) (gs_elements s)) as ts. revert Heqts. generalize (gs_elements s).
      induction Fe as [|e t l ts (A & Nm & _) F IH]; intros [|g gl] Eq; try discriminate Eq; cbn [map]; constructor; injection Eq as -> ->; [exact Nm|now apply IH]. }
    assert (Pn : Forall plain_text (map fst (gs_elements s))).
    { apply Forall_forall. intros a Ia. apply in_map_iff in Ia as (g & <- & Ig). now apply Ft. }
    destruct (ge_class el) eqn:Ec.
    - destruct Te as (Ty & Nq & _). destruct (typed_element_printed sort n rt limit O nss_x [] o code m b els _ e name LS (Forall_nil _) C L He Hnames Nn Pn Ie Ne _ Ae Re Ty Nq) as (t & sg & A & Dn & Kg). rewrite (Gs sg Kg) in A.
      exists t. split; [exact A|]. exact (denoted code m C L _ _ Tn Dn).
    - destruct (tops_complex _ I Ec) as (c & Et). cbn [snd] in Et. rewrite Et in *. destruct Te as (Lt & ct & Hc & Ac & Lc & els0 & attrs & Sc & Fs & Fa).
      assert (Cr := Tn c eq_refl). assert (Cr' := Cr). destruct Cr' as (d & Hd & Nd & Hf & _). rewrite (class_of_ok _ _ _ Hd) in *. cbn [content_of co_ind co_elems co_attrs] in *.
      destruct (content_fine E G limit rank s R c (capital name) Cr) as [(U & _) _]. rewrite (class_of_ok _ _ _ Hd) in U. cbn [content_of co_attrs co_elems app] in U.
      destruct (anonymous_class_printed sort n rt limit O nss_x [] o code m b els _ e name LS (Forall_nil _) C L He Hnames Nn Pn Ie Ne ct _ els0 attrs _ _ Lt Hc Ac Lc Sc Fs Fa U)
        as ((sg & A & Kg) & d' & Md & Mr & Kd & In_ & F).
      { intros p Ip. cbn [app] in Ip. apply in_map_iff in Ip as (f & <- & If). rewrite Forall_forall in Hf. destruct (Hf f If) as (_ & _ & _ & Tk & _). cbn [particle_of pt_type].
        destruct (kinds code m C L) as [Ks Kc]. destruct (f_type f) as [u|c']; cbn [type_known] in Tk.
        - destruct Tk as [Lu | Ou].
          + exists (TSimple u). destruct (library_named u Lu) as (l & El & Cl & Nl & Ecl & Au). rewrite El. exists (Some "xsd"), l. split; [now apply qualified_lib|].
            split; [exact Nl|]. left. split; [now left|]. unfold library_provides. rewrite Ecl. destruct Lu as (-> & _). reflexivity.
          + assert (Ou' := Ou). destruct Ou' as [Iu Nu]. destruct (Ks _ Iu) as (u' & Au). exists (TSimple u'). rewrite (own_simple_ref s u Ou).
            destruct (names_fine E G limit rank s R _ (in_simple s _ Iu)) as [Us Cn]. exists (Some "sns"), (type_name (st_class u)). split; [now apply qualified_ref|].
            split; [apply name_filled, usable_filled, Us|]. right. split; [intros [F | []]; discriminate F|]. rewrite (name_back _ Cn). unfold provides. now rewrite Au.
        - destruct (Kc _ Tk) as (kk & Au). exists (TComplex c'). destruct (names_fine E G limit rank s R _ (in_complex s _ Tk)) as [Us Cn].
          exists (Some "sns"), (type_name c'). split; [now apply qualified_ref|]. split; [apply name_filled, usable_filled, Us|]. right. split; [intros [F | []]; discriminate F|].
          rewrite (name_back _ Cn). unfold provides. now rewrite Au. }
      rewrite (Gs sg Kg) in A. exists (TComplex (capital name)). split; [exact A|]. split; [reflexivity|]. exists c, d, d'. split; [reflexivity|]. split; [exact Hd|]. split; [exact Md|].
      split; [exact Mr|]. split; [exact Kd|]. split; [exact In_|]. cbn [app] in F. exact (all_mirrored code m C L c (capital name) _ _ Hf F).
  Qed.
  Lemma o_simple m : import_schema sort n rt limit O nss_x o = Ok m ->
    forall st c, In st (gs_simple s) -> sc_base st = SString c no_sfacets -> sc_fraction st = VNone ->
    (sc_pattern st = VNone \/ exists p, sc_pattern st = VStr p /\ p <> "" /\ no_top_alt (rt_re rt p) = true) ->
    exists t, provides m (sc_name st) (TSimple t) /\
      forall w, st_accept O t (VStr w) = Ok (VStr w) <->
        (sc_enum st = [] \/ In (VStr w) (sc_enum st)) /\ (forall p, sc_pattern st = VStr p -> pattern_sat (rt_re rt p) w).
  Proof.
    unfold import_schema. intros Rg st c I Eb Ef Ep.
    apply bind_ok in Rg as (code & C & L). assert (So' := So). destruct So' as (_ & _ & (b & sts & Hs & Fs) & _).
    assert (Is : In (simple_of st) (sc_simples plan)) by (apply (in_map simple_of _ _ I)).
    destruct (forall2_right _ _ _ Fs _ Is) as (so & Io & (Hnm & _ & r & b' & es & Hr & Ar & Hb & Hes & Fe & Hf)). cbn [simple_of sp_name sp_base sp_enums sp_facets] in *.
    assert (R' := R). destruct R' as (_ & _ & _ & _ & _ & _ & _ & Fr & _). rewrite Forall_forall in Fr. destruct (Fr st I) as (Lb & Pe & Pp).
    destruct (library_named _ Lb) as (local & El & Cl & Nl & Ecl & Ab). rewrite El in Hb.
    destruct D as (_ & _ & _ & _ & Ds & _). rewrite Forall_forall in Ds. destruct (Ds st I) as (_ & _ & Te & _).
    assert (Sp : states_pattern r (match sc_pattern st with VStr p => Some p | _ => None end) /\
                 forall p, (match sc_pattern st with VStr p => Some p | _ => None end) = Some p -> p <> "" /\ plain_pattern p /\ no_top_alt (rt_re rt p) = true).
    { specialize (Hf "pattern" (or_introl eq_refl)). unfold pattern_facet in Hf. rewrite Ef in Hf. cbn [st_text] in Hf.
      destruct Ep as [Ep | (p & Ep & Np & Nt)]; rewrite Ep in *; cbn [st_text] in Hf.
      - split; [exact Hf|discriminate].
      - destruct p as [|a p]; [congruence|]. cbn [assoc String.eqb Ascii.eqb Bool.eqb] in Hf. split.
        + destruct Hf as (v & V1 & V2 & V3). exists v. auto.
        + intros q [= <-]. auto. }
    destruct Sp as [Sp Pc].
    destruct (string_restriction_printed sort n rt limit O nss_x [] o code m b sts so (type_name (sc_name st)) r _ (Some "xsd") local c b' es (strings (sc_enum st)) (match sc_pattern st with VStr p => Some p | _ => None end)
      LS (Forall_nil _) C L Hs Io Hnm Hr Ar Hb (qualified_lib local Cl) (or_introl eq_refl)) as (t & Pv & Ac); auto.
    { rewrite Ecl, <- Eb. apply Lb. }
    destruct (names_fine E G limit rank s R (sc_name st)) as [_ Cn]; [apply in_simple, (in_map sc_name _ _ I)|]. rewrite (name_back _ Cn) in Pv.
    exists t. split; [exact Pv|]. intros w. rewrite Ac. clear - Te. split; intros [A B]; (split; [|]).
    - destruct A as [A | A]; [left|right].
      + destruct Te as [|v l (z & -> & _) F]; [reflexivity|discriminate A].
      + unfold strings in A. apply in_flat_map in A as (v & Iv & A). destruct v; try contradiction A. destruct A as [-> | []]. exact Iv.
    - intros p Ep. apply B. now rewrite Ep.
    - destruct A as [-> | A]; [now left|right]. unfold strings. apply in_flat_map. exists (VStr w). split; [exact A|now left].
    - intros p Ep. destruct (sc_pattern st); try discriminate Ep. injection Ep as ->. now apply B.
  Qed.
  End Object.
End Same.

(** ** From the document *)
Section Document.
  Variables (sort : sorter) (n : nat) (rt : runtime) (limit lim k : nat) (O : oracle) (E : env) (G : decls) (s : gschema) (rank : string -> nat).
  Variables (doc : xdocument) (x : node).
  Hypothesis LS : list_sort sort.
  Hypothesis Hn : 0 < n.
  Hypothesis D : schema_describable O E G s.
  Hypothesis R : schema_reproducible E G limit rank s.
  Hypothesis Gd : generate_xsd (8 + k) O (lib_env lim) E G s = Ok doc.
  Hypothesis Rx : received (lib_env lim) (xs "Schema") (xd_root doc) x.

  Lemma read_back : exists o, parse_obj (8 + k) O (lib_env lim) (xs "Schema") x = Ok o /\ states_schema o (plan_of E s).
  Proof.
    assert (R' := R). destruct R' as (_ & _ & Ei & En & _). pose proof (schema_exact O lim E G s D Ei En) as Go.
    destruct (xsd_reads O lim E G k s doc _ x D Gd Go Rx) as (o & P & Do). exists o. split; [exact P|].
    exact (schema_alike _ o (plan_of E s) Do (schema_states O E G limit rank s D R)).
  Qed.
  Lemma nss_are : xsd_prefixes doc = nss_x.
  Proof.
    pose proof (generate_ok O lim E G k s D) as Gk. rewrite Gd in Gk. injection Gk as ->. apply prefixes_are. apply R.
  Qed.

  Lemma regenerate_is : exists o, states_schema o (plan_of E s) /\ regenerate sort n rt limit (8 + k) O (lib_env lim) doc x = import_schema sort n rt limit O nss_x o.
  Proof. destruct read_back as (o & P & So). exists o. split; [exact So|]. unfold regenerate. now rewrite P, nss_are. Qed.
  Lemma reclassed : exists m, regenerate sort n rt limit (8 + k) O (lib_env lim) doc x = Ok m /\
    Permutation (map fst (ms_names (md_state m))) (class_names s) /\
    forall c, In c (gs_complex s) -> exists fs, new_instance O (module_env limit (md_state m)) c = Ok fs.
  Proof. destruct regenerate_is as (o & So & ->). exact (o_classes sort n rt limit O E G s rank LS Hn D R o So). Qed.
  Lemma same_classes m : regenerate sort n rt limit (8 + k) O (lib_env lim) doc x = Ok m ->
    forall c d, In c (gs_complex s) -> e_cls E c = Some d ->
    exists d', module_class m c d' /\ same_class m c d d' /\ cd_schema d' = Some {| si_tns := Some (gs_tns s); si_efd := gs_efd s |}.
  Proof. destruct regenerate_is as (o & So & ->). exact (o_same sort n rt limit O E G s rank LS Hn D R o So m). Qed.
  Lemma same_elements m : regenerate sort n rt limit (8 + k) O (lib_env lim) doc x = Ok m ->
    map fst (md_elements m) = map fst (gs_elements s) /\
    forall name el, In (name, el) (gs_elements s) ->
    exists t, assoc name (md_elements m) = Some (t, option_map written_group (ge_subst el)) /\
      if ge_class el then same_type m (ge_type el) t
      else t = TComplex (capital name) /\ exists c d d', ge_type el = TComplex c /\ e_cls E c = Some d /\ module_class m (capital name) d' /\ same_class m (capital name) d d'.
  Proof. destruct regenerate_is as (o & So & ->). intros I. split; [exact (o_names sort n rt limit O E G s rank LS R o So m I)|exact (o_elements sort n rt limit O E G s rank LS Hn D R o So m I)]. Qed.
  Lemma same_simple m : regenerate sort n rt limit (8 + k) O (lib_env lim) doc x = Ok m ->
    forall st c, In st (gs_simple s) -> sc_base st = SString c no_sfacets -> sc_fraction st = VNone ->
    (sc_pattern st = VNone \/ exists p, sc_pattern st = VStr p /\ p <> "" /\ no_top_alt (rt_re rt p) = true) ->
    exists t, provides m (sc_name st) (TSimple t) /\
      forall w, st_accept O t (VStr w) = Ok (VStr w) <->
        (sc_enum st = [] \/ In (VStr w) (sc_enum st)) /\ (forall p, sc_pattern st = VStr p -> pattern_sat (rt_re rt p) w).
  Proof. destruct regenerate_is as (o & So & ->). exact (o_simple sort n rt limit O E G s rank LS D R o So m). Qed.
End Document.
