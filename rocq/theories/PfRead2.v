(** Elements that fit the XSD document of a class are read. *)
From Coq Require Import String Ascii List ZArith NArith Bool Lia Permutation.
From Verif Require Import PyBase PyRe Xml PyVal XsdSimple XsdComplex LibClasses Py2Xsd SpecXsd SpecSimple SpecRound SpecTotal SpecValid SpecGiven SpecRead SpecParse PfBase PfSimple PfObject PfParse PfRound PfValid PfValid2 PfValid3 PfRead.
From Verif Require PfValid4.
Import ListNotations.
Open Scope nat_scope.
Open Scope string_scope.
Open Scope list_scope.

Section Schema.
  Variable O : oracle. Variable E : env. Variable G : decls. Variable s : gschema. Variable mean : string -> re.
  Hypothesis HO : reads_numbers O.
  Hypothesis HS : schema_ok mean E G s.
  Hypothesis HR : schema_readable O E G s.
  Notation D := (the_doc O E G s).
  Notation HN := (proj1 (proj2 HS)).

  Lemma tns_not_xsd : gs_tns s <> ns_xsd.
  Proof. apply HR. Qed.

  (** ** Texts *)
  Lemma own_text q w : text_of mean D ("sns:" ++ q)%string w -> exists t base fs, global_type D q t /\ restricts t base fs /\ text_of mean D base w /\ meets mean fs w.
  Proof.
    inversion 1 as [q' n w' Hn Hl|q' ns n t base fs w' Hown Hn Hg Hr Hb Hm]; subst.
    - apply PfValid4.names_sns in Hn as (C & _). symmetry in C. destruct (tns_not_xsd C).
    - apply PfValid4.names_sns in Hn as (-> & ->). eauto 10.
  Qed.
  Lemma xsd_text n w : text_of mean D ("xsd:" ++ n)%string w -> lexical n w.
  Proof.
    inversion 1 as [q' n' w' Hn Hl|q' ns n' t base fs w' Hown Hn Hg Hr Hb Hm]; subst.
    - apply PfValid4.names_xsd in Hn as (_ & ->). exact Hl.
    - apply PfValid4.names_xsd in Hn as (-> & _). injection Hown as C. destruct (tns_not_xsd C).
  Qed.
  Lemma library_ref u : library_text u -> exists n, type_ref (TSimple u) = ("xsd:" ++ n)%string.
  Proof.
    intros Hu. destruct u; try contradiction; cbn [library_text] in Hu; try (eexists; reflexivity).
    - destruct Hu as [<- | [<- | []]]; eexists; reflexivity.
    - destruct Hu as [<- | [<- | [<- | []]]]; eexists; reflexivity.
    - eexists. unfold type_ref. rewrite Hu. reflexivity.
  Qed.
  Lemma own_reads st u w : In st (gs_simple s) -> own_string mean st u -> type_plain u -> text_of mean D (type_ref (TSimple u)) w -> text_read O u w.
  Proof.
    intros Hin (c & f & Hc & Hb & Hfr & -> & Hl & Hf & He & Hp) Hpl Ht.
    assert (X : type_ref (TSimple (SString (sc_name st) f)) = ("sns:" ++ type_name (sc_name st))%string) by (unfold type_ref; rewrite Hl; reflexivity).
    rewrite X in Ht. apply own_text in Ht as (t & base & fs & Hg & Hr & _ & Hm).
    rewrite (PfValid4.the_one_same _ _ _ _ Hg (simple_found O E G s mean HN st Hin)) in Hr. clear Hg t.
    destruct Hr as (a & a' & Er & _). unfold describe_simple, xel in Er. rewrite Hfr in Er.
    assert (Efs : fs = map (facet "enumeration") (strings (sc_enum st)) ++ match sc_pattern st with VStr (String b q) => [facet "pattern" (String b q)] | _ => [] end).
    { assert (Y : forall (A B : list node), A = B -> B = A) by auto. apply Y. clear Y.
      injection Er as _ _ Er. rewrite <- Er. reflexivity. }
    clear Er. destruct Hm as (_ & Me & Mp & _). rewrite Efs in Me, Mp. clear Efs fs.
    apply string_reads; auto.
    - intros r Er. rewrite Hp in Er. destruct (sc_pattern st) as [| | | | | |[|b q]| | | | | | |] eqn:Es; try discriminate Er. injection Er as <-.
      destruct Mp as [Mp | (p & x & Hx & Fx & Mp)].
      + exfalso. apply (Mp (String b q) (facet "pattern" (String b q))); [apply in_or_app; right; now left | now apply facet_is_facet].
      + apply in_app_or in Hx as [Hx | [<- | []]].
        * apply in_map_iff in Hx as (v & <- & _). apply facet_is_facet in Fx as [C _]. discriminate C.
        * apply facet_is_facet in Fx as [_ ->]. exact Mp.
    - intros l El. rewrite He in El. destruct (strings (sc_enum st)) as [|v0 l0] eqn:Es; [discriminate El|]. injection El as <-.
      destruct Me as [Me | (x & Hx & Fx)].
      + exfalso. apply (Me v0 (facet "enumeration" v0)); [apply in_or_app; left; now left | now apply facet_is_facet].
      + apply in_app_or in Hx as [Hx | Hx].
        * apply in_map_iff in Hx as (v & <- & Hv). apply facet_is_facet in Fx as [_ ->]. exact Hv.
        * destruct (sc_pattern st) as [| | | | | |[|b q]| | | | | | |]; try (destruct Hx; fail). destruct Hx as [<- | []]. apply facet_is_facet in Fx as [C _]. discriminate C.
  Qed.
  Lemma text_reads c f u w : type_ok mean G s c f -> f_type f = TSimple u -> type_plain u -> (dc_class G c f = false -> facets_shown G u) ->
    (u = SBoolean -> w <> "0" /\ w <> "1") -> text_fits mean D (describe_element O G c f) w -> text_read O u w.
  Proof.
    intros Ht Hu Hp Hsh Hb Hf. unfold type_ok in Ht. destruct (dc_class G c f) eqn:Ec.
    - rewrite Hu in Ht. destruct Hf as [(q & Hq & Hx) | (t & base & fs & Hq & _)]; rewrite decl_type, Ec in Hq; [|discriminate Hq]. injection Hq as <-. rewrite Hu in Hx.
      destruct Ht as [Hbare | (st & Hin & Hst)]; [|exact (own_reads st u w Hin Hst Hp Hx)].
      destruct (library_ref u (bare_library u Hbare)) as (n & Hn). rewrite Hn in Hx. apply xsd_text in Hx.
      exact (library_reads O mean G u n w HO (bare_library u Hbare) Hn Hx Hp (or_introl Hbare) Hb).
    - destruct Ht as (u' & Hu' & Hr). assert (u' = u) by congruence. subst u'.
      destruct Hf as [(q & Hq & Hx) | (t & base & fs & Hq & Hk & Hres & Hx & Hm)]; [rewrite decl_type, Ec in Hq; discriminate Hq|].
      unfold describe_element, xel in Hk. cbn [el_kids] in Hk. rewrite Ec, Hu in Hk. destruct Hres as (a & a' & -> & Hba). injection Hk as <- <- <-. cbn in Hba. injection Hba as <-.
      destruct (library_ref u (restricted_library mean G u Hr)) as (n & Hn). change (match u with SMaxOccurs => _ | _ => _ end) with (type_ref (TSimple u)) in Hx. rewrite Hn in Hx. apply xsd_text in Hx.
      exact (library_reads O mean G u n w HO (restricted_library mean G u Hr) Hn Hx Hp (or_intror (conj Hr (conj (Hsh eq_refl) Hm))) Hb).
  Qed.

  (** ** What fits a declaration *)
  Lemma class_no_text c w : In c (gs_complex s) -> ~ text_of mean D (type_ref (TComplex c)) w.
  Proof.
    intros Hc H. apply own_text in H as (t & base & fs & Hg & (a & a' & -> & _) & _).
    pose proof (PfValid4.the_one_same _ _ _ _ Hg (class_found O E G s mean HN c Hc)) as X. unfold describe_class, xel in X.
    assert (Y : clark ns_xsd "simpleType" = clark ns_xsd "complexType") by congruence. apply clark_inj in Y. discriminate Y.
  Qed.
  Lemma typed_fits c i f x : field_ok mean G s c i f -> fits mean D (describe_element O G c f) x ->
    (f_nillable f = true /\ exists tag, x = Elem tag [(xsi_nil, "true")] []) \/
    (exists u tag k w, f_type f = TSimple u /\ x = Elem tag [] k /\ only_text k w /\ text_fits mean D (describe_element O G c f) w) \/
    (exists c' tag k k', f_type f = TComplex c' /\ In c' (gs_complex s) /\ x = Elem tag [] k /\ elements k k' /\ content mean D (describe_class O G true c' (class_of E c')) k').
  Proof.
    intros (_ & _ & _ & Ht) Hf. unfold type_ok in Ht. inversion Hf as [d tag Hn|d tag k w Ho Htx|d tag ct k k' Hct Hk Hco]; subst.
    - left. rewrite decl_nillable in Hn. injection Hn as Hn. destruct (f_nillable f); [|discriminate Hn]. split; eauto.
    - right; left. destruct (f_type f) as [u|c'] eqn:Et; [eauto 10|]. exfalso.
      destruct (dc_class G c f) eqn:Ec; [|destruct Ht as (u & Hu & _); discriminate Hu].
      destruct Htx as [(q & Hq & Hx) | (t & base & fs & Hq & _)]; rewrite decl_type, Ec, ?Et in Hq; [|discriminate Hq]. injection Hq as <-. exact (class_no_text c' w Ht Hx).
    - right; right. destruct Hct as (Htag & [(q & ns & n & Hq & Hown & Hnm & Hg) | (Hq & Hkid)]); rewrite decl_type in Hq; destruct (dc_class G c f) eqn:Ec; try discriminate Hq.
      + injection Hq as <-. injection Hown as <-. destruct (f_type f) as [u|c'] eqn:Et.
        * exfalso. destruct Ht as [Hb | (st & Hin & Hst)].
          -- destruct (library_ref u (bare_library u Hb)) as (m & Hm). rewrite Hm in Hnm. apply PfValid4.names_xsd in Hnm as (C & _). destruct (tns_not_xsd C).
          -- destruct Hst as (c0 & f0 & _ & _ & _ & -> & Hl & _).
             assert (X : type_ref (TSimple (SString (sc_name st) f0)) = ("sns:" ++ type_name (sc_name st))%string) by (unfold type_ref; rewrite Hl; reflexivity).
             rewrite X in Hnm. apply PfValid4.names_sns in Hnm as (_ & ->).
             rewrite (PfValid4.the_one_same _ _ _ _ Hg (simple_found O E G s mean HN st Hin)) in Htag. unfold describe_simple, xel in Htag. cbn [el_tag] in Htag.
             apply clark_inj in Htag. discriminate Htag.
        * exists c', tag, k, k'. unfold type_ref in Hnm. apply PfValid4.names_sns in Hnm as (_ & ->).
          rewrite (PfValid4.the_one_same _ _ _ _ Hg (class_found O E G s mean HN c' Ht)) in Hco. auto 10.
      + exfalso. unfold describe_element, xel in Hkid. cbn [el_kids] in Hkid. rewrite Ec in Hkid. injection Hkid as <-. cbn [el_tag] in Htag. apply clark_inj in Htag. discriminate Htag.
  Qed.
End Schema.
