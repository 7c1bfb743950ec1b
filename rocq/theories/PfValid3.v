(** What objects write fits the XSD document of their classes, continued. *)
From Coq Require Import String Ascii List ZArith NArith Bool Lia Permutation.
From Verif Require Import PyBase PyRe Xml PyVal XsdSimple XsdComplex LibClasses Py2Xsd SpecXsd SpecSimple SpecRender SpecRound SpecValid SpecGiven PfBase PfSimple PfRender PfValid PfValid2 PfXsd.
Import ListNotations.
Open Scope nat_scope.
Open Scope string_scope.
Open Scope list_scope.

Definition no_texts (k : list node) : Prop := Forall (fun y => is_text y = false) k.
Lemma no_texts_elements k : no_texts k -> elements k k.
Proof.
  intros H. split.
  - induction H as [|y k Hy H IH]; [reflexivity|]. cbn [filter]. rewrite Hy. cbn. now f_equal.
  - intros t Hin. unfold no_texts in H. rewrite Forall_forall in H. apply H in Hin. discriminate.
Qed.

Section Schema.
  Variable O : oracle. Variable E : env. Variable G : decls. Variable s : gschema. Variable mean : string -> re.
  Hypothesis HD : schema_describable O E G s.
  Hypothesis HS : schema_ok mean E G s.
  Notation D := (the_doc O E G s).
  Notation ns := (Some (gs_tns s)).
  Notation efd := (Some (gs_efd s)).

  Lemma tns_proper : gs_tns s <> "".
  Proof. apply HS. Qed.
  Lemma field_tag f n t : f_ns f = None \/ f_ns f = ns -> ncname_ok n = true ->
    norm_name (qualify (eff_ns f ns) efd n) = Ok t -> local_tag D n t.
  Proof.
    intros Hf Hn Ht. apply qualified_tag in Ht; [|exact Hn]. subst t.
    unfold local_tag. change (assoc "elementFormDefault" (el_attrs (root D))) with (Some (gs_efd s)).
    unfold elem_tag. replace (match f_ns f with Some n0 => Some n0 | None => ns end) with ns by (destruct Hf as [-> | ->]; reflexivity).
    cbn [form_qualified is_qualified]. unfold qualified. destruct (String.eqb (gs_efd s) "qualified"); cbn [andb].
    - exists (gs_tns s). split; [reflexivity|]. destruct (String.eqb_spec (gs_tns s) "") as [C|_]; [destruct (tns_proper C) | reflexivity].
    - reflexivity.
  Qed.

  Lemma class_known c : In c (gs_complex s) -> exists d, e_cls E c = Some d /\ cd_kind d <> CKHeader /\
    (forall si, cd_schema d = Some si -> si_tns si = ns) /\ Forall (field_ok mean G s c (cd_ind d)) (cd_fields d).
  Proof. intros H. destruct HS as (_ & _ & Hc & _). rewrite Forall_forall in Hc. exact (Hc c H). Qed.
  Lemma fields_describable c d f : class_describable O E G c -> e_cls E c = Some d -> In f (cd_fields d) -> is_plain f = true -> field_describable O G c f.
  Proof. intros (d' & E' & _ & _ & H) Ed Hin Hp. assert (d' = d) by congruence. subst d'. auto. Qed.
  Lemma occurrence_plain i f : occurrence_ok i f -> is_plain f = true.
  Proof. unfold occurrence_ok, is_plain, is_attr, is_group. destruct (f_kind f); try contradiction; reflexivity. Qed.
  Lemma complex_describable c : In c (gs_complex s) -> class_describable O E G c.
  Proof. intros H. destruct HD as (_ & _ & _ & _ & _ & Hc & _). rewrite Forall_forall in Hc. exact (Hc c H). Qed.

  (** ** Content *)
  Lemma ordinary_text u v : ordinary O u v -> exists t, st_xmlvalue O u v = Ok (VStr t).
  Proof. destruct u; destruct v; try contradiction; try (intros _; eexists; reflexivity). destruct b; intros _; eexists; reflexivity. Qed.
  Lemma type_ok_attrs c f u : type_ok mean G s c f -> f_type f = TSimple u -> simple_attrs u = [].
  Proof.
    unfold type_ok. intros H Hu. destruct (dc_class G c f).
    - rewrite Hu in H. destruct H as [H | (st & _ & (c' & f' & _ & _ & _ & -> & _))]; [destruct u; try contradiction; reflexivity | reflexivity].
    - destruct H as (u' & Hu' & H). assert (u' = u) by congruence. subst u'. destruct u; try contradiction; reflexivity.
  Qed.

  (** What the recursive calls have to give. *)
  Definition renders_well (rec : renderer) : Prop :=
    forall c v t x, In c (gs_complex s) -> complete O E (TComplex c) v -> rec c (Elem t [] []) v ns efd = Ok x ->
    exists k, x = Elem t [] k /\ no_texts k /\ content mean D (describe_class O G true c (class_of E c)) k.

  Lemma eff_tns f : f_ns f = None \/ f_ns f = ns -> eff_ns f ns = ns.
  Proof. unfold eff_ns. intros [-> | ->]; reflexivity. Qed.
  Lemma item_fits rec c i f t v x : renders_well rec -> field_ok mean G s c i f -> field_describable O G c f -> complete O E (f_type f) v ->
    render_type O rec (f_type f) (Elem t [] []) v ns efd = Ok x -> exists k, x = Elem t [] k /\ fits mean D (describe_element O G c f) x.
  Proof.
    intros IH (_ & _ & _ & Ht) Hd Hc Hr. destruct (f_type f) as [u|c'] eqn:Et.
    - cbn [render_type] in Hr. apply render_simple_shape in Hr as (y & kids & Hy & Hk & ->). rewrite (type_ok_attrs c f u Ht Et).
      inversion Hc as [u' v' Ha Ho| |]; subst. destruct (ordinary_text u v Ho) as (tx & Hx). rewrite Hx in Hy. injection Hy as <-.
      exists kids. split; [reflexivity|]. apply (ft_text mean D _ t kids tx).
      + destruct Hk as [(C & _) | (w & [= <-] & ->)]; [discriminate C | right; reflexivity].
      + exact (simple_fits O E G s mean (proj1 (proj2 HS)) c f u v tx Ht Hd Et Ha Ho Hx).
    - cbn [render_type] in Hr. pose proof Ht as Ht'. unfold type_ok in Ht. destruct (dc_class G c f) eqn:Ec; [|destruct Ht as (u & Hu & _); congruence].
      rewrite Et in Ht. destruct (IH c' v t x Ht Hc Hr) as (k & -> & Hk & Hco). exists k. split; [reflexivity|].
      eapply ft_children; [|exact (no_texts_elements k Hk)|exact Hco]. split; [reflexivity|]. left.
      exists (type_ref (f_type f)), (gs_tns s), (type_name c'). rewrite decl_type, Ec, Et. split; [reflexivity|]. split; [reflexivity|].
      split; [apply doc_sns | now apply (class_found O E G s mean (proj1 (proj2 HS)))].
  Qed.

  Lemma nil_fits c f t : f_nillable f = true -> fits mean D (describe_element O G c f) (Elem t [(xsi_nil, "true")] []).
  Proof. intros H. apply ft_nil. rewrite decl_nillable, H. reflexivity. Qed.

  (** One element. *)
  Lemma element_runs rec c i f v n t a k p : renders_well rec -> field_ok mean G s c i f -> field_describable O G c f -> f_kind f = KElement -> n = tag_or_name f ->
    given O E f v -> render_element O rec f (Elem t a k) n v ns efd = Ok p ->
    exists run, p = Elem t a (k ++ run) /\ no_texts run /\ occurs mean D (describe_element O G c f) run.
  Proof.
    intros IH Hf Hd Hk -> Hg Hr. pose proof Hf as (Hn & Hns & Hocc & _). unfold occurrence_ok in Hocc. rewrite Hk in Hocc.
    assert (Hrun : forall x, local_tag D (tag_or_name f) (el_tag x) -> fits mean D (describe_element O G c f) x -> occurs mean D (describe_element O G c f) [x]).
    { intros x Hx Hfit. apply (oc_run mean D _ (tag_or_name f)); [reflexivity | reflexivity | | |].
      - unfold at_least. rewrite decl_min. destruct Hocc as [-> | ->]; cbn [option_map length]; eexists; (split; [apply dec_Z_whole | lia]).
      - unfold at_most. rewrite decl_max, Hk. cbn. lia.
      - constructor; [auto | constructor]. }
    inversion Hg as [f0 K M|f0 K N|f0 v0 K Nn Nl Hc|f0 b items K Hi]; subst; try congruence.
    - cbn in Hr. injection Hr as <-. exists []. rewrite app_nil_r. split; [reflexivity|]. split; [constructor|].
      apply (oc_run mean D _ (tag_or_name f)); [reflexivity | reflexivity | | | constructor].
      + unfold at_least. rewrite decl_min, M. cbn. exists 0%Z. split; [apply (dec_Z_whole 0) | lia].
      + unfold at_most. rewrite decl_max, Hk. cbn. lia.
    - cbn [render_element] in Hr. apply bind_ok in Hr as (x & Hx & Hr). apply mk_element_ok in Hx as (tg & Htg & ->). apply bind_ok in Hr as (x' & Hx' & [= <-]).
      apply el_set_ok in Hx' as (nn & Hnn & _ & ->). rewrite xsi_nil_norm in Hnn. injection Hnn as <-.
      eexists. split; [reflexivity|]. split; [constructor; [reflexivity | constructor]|].
      apply Hrun; [exact (field_tag f _ tg Hns Hn Htg) | apply nil_fits; exact N].
    - assert (Hr' : (x <- mk_element (qualify (eff_ns f ns) efd (tag_or_name f)) ;; x' <- render_type O rec (f_type f) x v (eff_ns f ns) efd ;; Ok (el_append (Elem t a k) x')) = Ok p).
      { destruct v; try congruence; exact Hr. }
      clear Hr. apply bind_ok in Hr' as (x & Hx & Hr). apply mk_element_ok in Hx as (tg & Htg & ->). apply bind_ok in Hr as (x' & Hx' & [= <-]).
      rewrite (eff_tns f Hns) in Hx'. destruct (item_fits rec c i f tg v x' IH Hf Hd Hc Hx') as (kk & -> & Hfit).
      eexists. split; [reflexivity|]. split; [constructor; [reflexivity | constructor]|].
      apply Hrun; [exact (field_tag f _ tg Hns Hn Htg) | exact Hfit].
  Qed.

  (** A list of elements. *)
  Lemma items_run rec c i f n t a items : renders_well rec -> field_ok mean G s c i f -> field_describable O G c f -> n = tag_or_name f ->
    Forall (fun v => v = VNil /\ f_nillable f = true \/ v <> VNil /\ complete O E (f_type f) v) items ->
    forall k p, foldM (fun p item => x <- mk_element (qualify (eff_ns f ns) efd n) ;;
                     x' <- (match item with VNil => el_set x xsi_nil "true" | _ => render_type O rec (f_type f) x item (eff_ns f ns) efd end) ;;
                     Ok (el_append p x')) (Elem t a k) items = Ok p ->
    exists run, p = Elem t a (k ++ run) /\ no_texts run /\ length run = length items /\
      Forall (fun x => local_tag D n (el_tag x) /\ fits mean D (describe_element O G c f) x) run.
  Proof.
    intros IH Hf Hd -> Hi. pose proof Hf as (Hn & Hns & _). induction Hi as [|v items Hv Hi IHi]; intros k p Hr; cbn [foldM] in Hr.
    - injection Hr as <-. exists []. rewrite app_nil_r. repeat split; constructor.
    - apply bind_ok in Hr as (p' & Hp & Hr). apply bind_ok in Hp as (x & Hx & Hp). apply mk_element_ok in Hx as (tg & Htg & ->).
      apply bind_ok in Hp as (x' & Hx' & [= <-]).
      assert (X : exists a' kk, x' = Elem tg a' kk /\ fits mean D (describe_element O G c f) x').
      { destruct Hv as [(-> & Hnl) | (Hnn & Hc)].
        - apply el_set_ok in Hx' as (nn & Hnn & _ & ->). rewrite xsi_nil_norm in Hnn. injection Hnn as <-. do 2 eexists. split; [reflexivity | now apply nil_fits].
        - assert (Hx'' : render_type O rec (f_type f) (Elem tg [] []) v (eff_ns f ns) efd = Ok x') by (destruct v; try congruence; exact Hx').
          rewrite (eff_tns f Hns) in Hx''. destruct (item_fits rec c i f tg v x' IH Hf Hd Hc Hx'') as (kk & -> & Hfit). eauto. }
      destruct X as (a' & kk & -> & Hfit). cbn [el_append] in Hr. destruct (IHi _ _ Hr) as (run & -> & Hnt & Hl & Hrun).
      exists (Elem tg a' kk :: run). rewrite <- app_assoc. split; [reflexivity|]. split; [constructor; [reflexivity | exact Hnt]|].
      split; [cbn; now rewrite Hl|]. constructor; [|exact Hrun]. split; [exact (field_tag f _ tg Hns Hn Htg) | exact Hfit].
  Qed.
  Lemma list_runs rec c i f v t a k p : renders_well rec -> field_ok mean G s c i f -> field_describable O G c f -> f_kind f = KList ->
    given O E f v -> render_list O rec f (Elem t a k) v ns efd = Ok p ->
    exists run, p = Elem t a (k ++ run) /\ no_texts run /\ occurs mean D (describe_element O G c f) run.
  Proof.
    intros IH Hf Hd Hk Hg Hr. pose proof Hf as (Hn & Hns & Hocc & _). unfold occurrence_ok in Hocc. rewrite Hk in Hocc.
    destruct Hocc as ((m & Hm) & Hx1 & Hx2 & _ & tg & Htg & Htn).
    inversion Hg as [f0 K M|f0 K N|f0 v0 K Nn Nl Hc|f0 b items K Hi]; subst; try congruence.
    unfold render_list in Hr. rewrite Hm, Htg in Hr.
    destruct (negb (m =? 0)%Z && (Z.of_nat (length items) <? m)%Z) eqn:B1; [discriminate Hr|].
    destruct (match f_max f with OInt m0 => negb (m0 =? 0)%Z && (m0 <? Z.of_nat (length items))%Z | _ => false end) eqn:B2; [discriminate Hr|].
    assert (Tn : tg = tag_or_name f) by (unfold tag_or_name; rewrite Htg; destruct (String.eqb_spec tg ""); [contradiction | reflexivity]).
    cbv zeta in Hr. destruct (items_run rec c i f tg t a items IH Hf Hd Tn Hi k p Hr) as (run & -> & Hnt & Hl & Hrun).
    exists run. split; [reflexivity|]. split; [exact Hnt|]. apply (oc_run mean D _ tg); [reflexivity | rewrite decl_name; now rewrite Tn | | | exact Hrun].
    - unfold at_least. rewrite decl_min, Hm, Hl. cbn. exists m. split; [apply dec_Z_whole|].
      destruct (Z.eqb_spec m 0) as [->|_]; [lia|]. cbn in B1. apply Z.ltb_ge in B1. exact B1.
    - unfold at_most. rewrite decl_max, Hk, Hl. destruct (f_max f) as [|mx|]; [contradiction | | now left].
      right. exists mx. split; [apply dec_Z_whole|]. destruct (Z.eqb_spec mx 0) as [Z0|_]; [destruct Hx2; now rewrite Z0|]. cbn in B2. apply Z.ltb_ge in B2. exact B2.
  Qed.

  Lemma field_runs rec c i f v t a k p : renders_well rec -> field_ok mean G s c i f -> field_describable O G c f ->
    given O E f v -> render_field O E rec f (Elem t a k) v ns efd = Ok p ->
    exists run, p = Elem t a (k ++ run) /\ no_texts run /\ occurs mean D (describe_element O G c f) run.
  Proof.
    intros IH Hf Hd Hg Hr. unfold render_field in Hr. pose proof Hf as (_ & _ & Hocc & _). unfold occurrence_ok in Hocc.
    destruct (f_kind f) eqn:Hk; try contradiction.
    - exact (element_runs rec c i f v _ t a k p IH Hf Hd Hk eq_refl Hg Hr).
    - exact (list_runs rec c i f v t a k p IH Hf Hd Hk Hg Hr).
  Qed.
  Lemma absent_writes_nothing rec f v t a k p : absent f v -> render_field O E rec f (Elem t a k) v ns efd = Ok p -> p = Elem t a k.
  Proof.
    unfold render_field. intros [(-> & ->) | (-> & b & ->)] Hr.
    - cbn in Hr. congruence.
    - unfold render_list in Hr. repeat match type of Hr with context [if ?b then _ else _] => destruct b; [discriminate Hr|] end.
      cbv zeta in Hr. destruct (f_tag f); cbn in Hr; congruence.
  Qed.

  (** ** Objects *)
  Lemma plain_fields c i fs : Forall (field_ok mean G s c i) fs -> filter is_plain fs = fs.
  Proof.
    induction 1 as [|f fs Hf H IH]; [reflexivity|]. cbn [filter]. destruct Hf as (_ & _ & Ho & _). rewrite (occurrence_plain i f Ho). now f_equal.
  Qed.
  Lemma once_in_all c f : field_ok mean G s c IAll f -> at_most_once (describe_element O G c f).
  Proof.
    intros (_ & _ & Ho & _). unfold at_most_once. rewrite decl_max. unfold occurrence_ok in Ho. destruct (f_kind f); try contradiction; [now left|].
    destruct Ho as (_ & _ & _ & Ha & _). rewrite (Ha eq_refl). right. exists (dec_Z 1), 1%Z. split; [reflexivity|]. split; [apply dec_Z_whole | lia].
  Qed.
  Section Object.
    Variable rec : renderer. Variable IH : renders_well rec.
    Variable c : string. Variable i : indicator. Variable obj : list (string * pyval).
    Let step := fun par f => fv <- getattr obj (f_name f) ;; render_field O E rec f par fv ns efd.
    Lemma fields_run fs : Forall (field_ok mean G s c i) fs -> Forall (field_describable O G c) fs ->
      (forall f, In f fs -> exists v, assoc (f_name f) obj = Some v /\ SpecGiven.given O E f v) ->
      forall t a k p, foldM step (Elem t a k) fs = Ok p ->
      exists runs, p = Elem t a (k ++ concat runs) /\ no_texts (concat runs) /\ Forall2 (occurs mean D) (map (describe_element O G c) fs) runs.
    Proof.
      intros Hok. induction Hok as [|f fs Hf Hok IHf]; intros Hd Hg t a k p Hr; cbn [foldM] in Hr.
      - injection Hr as <-. exists []. rewrite app_nil_r. repeat split; constructor.
      - apply bind_ok in Hr as (p' & Hp & Hr). inversion Hd as [|? ? Hdf Hd']; subst.
        destruct (Hg f (or_introl eq_refl)) as (v & Hv & Hgv). unfold step, getattr in Hp. rewrite Hv in Hp. cbn [bind] in Hp.
        destruct (field_runs rec c i f v t a k p' IH Hf Hdf Hgv Hp) as (run & -> & Hnt & Ho).
        destruct (IHf Hd' (fun g Hin => Hg g (or_intror Hin)) t a _ p Hr) as (runs & -> & Hnts & Hos).
        exists (run :: runs). cbn [concat map]. split; [now rewrite app_assoc|]. split; [now apply Forall_app|]. constructor; assumption.
    Qed.
    Lemma absent_run fs t a k p : (forall f, In f fs -> exists v, assoc (f_name f) obj = Some v /\ absent f v) ->
      foldM step (Elem t a k) fs = Ok p -> p = Elem t a k.
    Proof.
      revert p. induction fs as [|f fs IHf]; intros p Hg Hr; cbn [foldM] in Hr; [congruence|].
      apply bind_ok in Hr as (p' & Hp & Hr). destruct (Hg f (or_introl eq_refl)) as (v & Hv & Ha). unfold step, getattr in Hp. rewrite Hv in Hp. cbn [bind] in Hp.
      apply (absent_writes_nothing rec f v t a k p' Ha) in Hp. subst p'. apply IHf; [|exact Hr]. intros g Hin. apply Hg. now right.
    Qed.
  End Object.

  Lemma object_content rec c d xe fs t p : renders_well rec -> e_cls E c = Some d -> Forall (field_ok mean G s c (cd_ind d)) (cd_fields d) ->
    class_describable O E G c -> complete O E (TComplex c) (VObj c xe fs) ->
    foldM (fun par f => fv <- getattr fs (f_name f) ;; render_field O E rec f par fv ns efd) (Elem t [] []) (cd_fields d) = Ok p ->
    exists k, p = Elem t [] k /\ no_texts k /\ forall b, content mean D (describe_class O G b c (class_of E c)) k.
  Proof.
    intros IH Ed Hok Hcd Hc Hr.
    assert (Hds : Forall (field_describable O G c) (cd_fields d)).
    { apply Forall_forall. intros f Hin. rewrite Forall_forall in Hok. destruct (Hok f Hin) as (_ & _ & Ho & _).
      exact (fields_describable c d f Hcd Ed Hin (occurrence_plain _ f Ho)). }
    assert (Hgr : forall b, group_of (describe_class O G b c (class_of E c)) (indicator_tag (cd_ind d)) (map (describe_element O G c) (cd_fields d))).
    { intros b. exists []. unfold class_of. rewrite Ed. unfold describe_class, xel. cbn [el_kids]. now rewrite (plain_fields c (cd_ind d) _ Hok). }
    inversion Hc as [|c' d' xe' fs' Ed' Hi Hg|c' d' xe' fs' before f after v Ed' Hi Hfs Hv Hg Hab]; subst; assert (d' = d) by congruence; subst d'.
    - destruct (fields_run rec IH c (cd_ind d) fs (cd_fields d) Hok Hds Hg t [] [] p Hr) as (runs & -> & Hnt & Hos).
      exists (concat runs). split; [reflexivity|]. split; [exact Hnt|]. intros b. specialize (Hgr b). destruct (cd_ind d) eqn:Ei.
      + exact (co_sequence mean D _ _ runs _ Hgr Hos eq_refl).
      + contradiction.
      + refine (co_all mean D _ _ runs _ Hgr _ Hos (Permutation_refl _)).
        apply Forall_forall. intros y Hy. apply in_map_iff in Hy as (f & <- & Hin). rewrite Forall_forall in Hok. apply once_in_all, Hok, Hin.
    - rewrite Hfs in Hr, Hok, Hds. rewrite foldM_app in Hr. apply bind_ok in Hr as (p1 & H1 & Hr). cbn [foldM] in Hr. apply bind_ok in Hr as (p2 & H2 & H3).
      apply (absent_run rec fs before t [] [] p1) in H1; [|intros g Hin; apply Hab, in_or_app; now left]. subst p1.
      apply Forall_app in Hok as (_ & Hok). apply Forall_app in Hds as (_ & Hds). inversion Hok as [|? ? Hf _]; subst. inversion Hds as [|? ? Hdf _]; subst.
      unfold getattr in H2. rewrite Hv in H2. cbn [bind] in H2.
      destruct (field_runs rec c (cd_ind d) f v t [] [] p2 IH Hf Hdf Hg H2) as (run & -> & Hnt & Ho). cbn [app] in H3.
      apply (absent_run rec fs after t [] run p) in H3; [|intros g Hin; apply Hab, in_or_app; now right]. subst p.
      exists run. split; [reflexivity|]. split; [exact Hnt|]. intros b. specialize (Hgr b). rewrite Hi in Hgr.
      refine (co_choice mean D _ _ _ run Hgr _ Ho). apply in_map. rewrite Hfs. apply in_or_app. right. now left.
  Qed.

  Lemma render_obj_parts n c d xe fs t p : e_cls E c = Some d -> cd_kind d <> CKHeader -> (forall si, cd_schema d = Some si -> si_tns si = ns) ->
    render_obj (S n) O E c (Elem t [] []) (VObj c xe fs) ns efd = Ok p ->
    foldM (fun par f => fv <- getattr fs (f_name f) ;; render_field O E (render_obj n O E) f par fv ns efd) (Elem t [] []) (cd_fields d) = Ok p.
  Proof.
    intros Ed Hk Hs Hr. cbn [render_obj] in Hr. unfold get_class in Hr. rewrite Ed in Hr. cbn [bind] in Hr.
    assert (X : (match cd_kind d with CKHeader => p <- obj_parts (VObj c xe fs) ;; di <- get_class E (fst p) ;; match cd_schema di with Some si => Ok (si_tns si) | None => Err AttributeError end | _ => Ok ns end) = Ok ns)
      by (destruct (cd_kind d); congruence).
    unfold get_class in X. apply bind_ok in Hr as (ns0 & Hns & Hr). rewrite X in Hns. injection Hns as <-.
    cbn [obj_parts bind fst snd] in Hr. rewrite Ed in Hr. cbn [bind] in Hr. replace (match cd_schema d with Some si => si_tns si | None => ns end) with ns in Hr; [exact Hr|].
    destruct (cd_schema d) as [si|]; [symmetry; now apply Hs | reflexivity].
  Qed.
  Lemma render_well n : renders_well (render_obj n O E).
  Proof.
    induction n as [|n IH]; intros c v t x Hin Hc Hr; [discriminate Hr|].
    destruct (class_known c Hin) as (d & Ed & Hk & Hs & Hok).
    assert (exists xe fs, v = VObj c xe fs) as (xe & fs & ->) by (inversion Hc; eauto).
    apply (render_obj_parts n c d xe fs t x Ed Hk Hs) in Hr.
    destruct (object_content _ c d xe fs t x IH Ed Hok (complex_describable c Hin) Hc Hr) as (k & -> & Hnt & Hco). eauto.
  Qed.

  Lemma document_valid n c name el v x : In (name, el) (gs_elements s) -> ge_type el = TComplex c -> ncname_ok name = true -> complete O E (TComplex c) v ->
    xml_of n O E v name ns efd = Ok x -> valid mean D x.
  Proof.
    intros Hin Ht Hn Hc Hr. assert (exists xe fs, v = VObj c xe fs) as (xe & fs & ->) by (inversion Hc; eauto).
    assert (Hcl : class_ok mean E G s c /\ class_describable O E G c /\ (ge_class el = true -> In c (gs_complex s))).
    { destruct HS as (_ & _ & _ & He). rewrite Forall_forall in He. specialize (He _ Hin c Ht). cbn [snd] in He.
      destruct HD as (_ & _ & _ & _ & _ & _ & Hd). rewrite Forall_forall in Hd. destruct (Hd _ Hin) as (_ & _ & Hd'). cbn [snd] in Hd'.
      destruct (ge_class el).
      - split; [exact (class_known c He)|]. split; [exact (complex_describable c He) | auto].
      - split; [exact He|]. destruct Hd' as (c' & Hc' & Hdc). assert (c' = c) by congruence. subst c'. split; [exact Hdc | discriminate]. }
    destruct Hcl as ((d & Ed & Hk & Hs & Hok) & Hcd & Hg).
    unfold xml_of in Hr. apply bind_ok in Hr as (x0 & Hx & Hr). apply mk_element_ok in Hx as (t & Hx & ->).
    apply ref_tag_norm with (ns := ns) in Hx; [|exact Hn]. cbn [obj_parts bind fst] in Hr.
    destruct n as [|n]; [discriminate Hr|]. apply (render_obj_parts n c d xe fs t x Ed Hk Hs) in Hr.
    destruct (object_content _ c d xe fs t x (render_well n) Ed Hok Hcd Hc Hr) as (k & -> & Hnt & Hco).
    exists (gs_tns s), name, (describe_toplevel O E G (name, el)). split; [reflexivity|]. split; [exact (element_found O E G s mean (proj1 (proj2 HS)) name el Hin)|].
    split.
    { cbn [el_tag]. rewrite Hx. unfold ref_tag. destruct (String.eqb_spec (gs_tns s) "") as [C|_]; [destruct (tns_proper C) | reflexivity]. }
    assert (At : assoc "type" (el_attrs (describe_toplevel O E G (name, el))) = if ge_class el then Some (type_ref (ge_type el)) else None).
    { unfold describe_toplevel, xel. cbn [el_attrs fst snd]. destruct (ge_class el), (ge_subst el); reflexivity. }
    destruct (ge_class el) eqn:Eg.
    - eapply ft_children; [|exact (no_texts_elements k Hnt)|exact (Hco true)]. split; [reflexivity|]. left.
      exists (type_ref (ge_type el)), (gs_tns s), (type_name c). rewrite At, Ht. split; [reflexivity|]. split; [reflexivity|].
      split; [apply doc_sns | apply (class_found O E G s mean (proj1 (proj2 HS))), Hg, eq_refl].
    - eapply ft_children; [|exact (no_texts_elements k Hnt)|exact (Hco false)]. split; [reflexivity|]. right. split; [exact At|].
      unfold describe_toplevel, xel. cbn [el_kids snd]. rewrite Eg, Ht. reflexivity.
  Qed.
End Schema.
